(** Proofs about the example with generated sources: its histories. *)
From Verif Require Import Prelude Proof_Prelude Model_Path Spec_Path Proof_Path Proof_ObjectPath Proof_Relative Model_Json Model_Schema Model_Command
  Model_ToolchainConfig Model_Target Spec_Target Model_Gcc Model_Gen Spec_Gen Model_FileGen Spec_FileGen Proof_FileGen Model_Sync Spec_Sync Model_Api Spec_Api Proof_Api
  Model_Toolchains Spec_Toolchains Model_Targets Spec_Targets Proof_Targets Model_Reg Spec_Reg Model_Project Spec_Project Model_Full Spec_Full Proof_Full3 Proof_Full4
  Proof_Bootstrap Proof_Bootstrap2 Model_Script Spec_Script Proof_Script Model_Chain Spec_Chain Proof_Chain Proof_Chain2.

(** ** Histories of scripts *)

Lemma shistory_at rg bd u8 mt0 l files gids objects sessions ev : forall run pre h F,
  shistory rg bd u8 mt0 l files gids objects sessions (pre ++ ev :: run) h F ->
  exists h0 F0 F1, shistory rg bd u8 mt0 l files gids objects sessions pre h0 F0 /\ sadmissible rg bd objects sessions F0 h0 ev /\
    fstep u8 F0 ev = Some F1 /\ fexec u8 F1 run = Some F.
Proof.
  induction run as [|e run IH] using rev_ind; intros pre h F H.
  - inversion H as [Z|evs h0 F0 ev0 F' H0 A S Z]; [destruct pre; discriminate|]. apply app_inj_tail in Z as [-> ->].
    exists h0, F0, F. repeat (split; [assumption|]). reflexivity.
  - replace (pre ++ ev :: run ++ [e]) with ((pre ++ ev :: run) ++ [e]) in H by (rewrite <- app_assoc; reflexivity).
    inversion H as [Z|evs h0 F0 ev0 F' H0 A S Z]; [destruct pre; discriminate|]. apply app_inj_tail in Z as [-> ->].
    apply IH in H0 as (h1 & F1 & F2 & H1 & A1 & S1 & X). exists h1, F1, F2. repeat (split; [assumption|]).
    clear - X S. revert F2 X. induction run as [|a run IH]; intros F2 X; cbn [fexec app] in *; [injection X as ->; rewrite S; reflexivity|].
    destruct (fstep u8 F2 a); [|discriminate]. auto.
Qed.
Lemma pexec_built evs : forall p p', pexec p evs = Some p' -> (forall i c ord, ~ In (PBuild i c ord) evs) -> incl (p_built p') (p_built p).
Proof.
  induction evs as [|ev evs IH]; intros p p' X N; cbn [pexec] in X; [injection X as <-; apply incl_refl|].
  destruct (pstep p ev) as [q|] eqn:S; [|discriminate]. intros [i c] I.
  apply (IH _ _ X (fun i c ord K => N i c ord (or_intror K))) in I. apply pstep_more in S as (_ & _ & S).
  destruct (S i c I) as [K|(ord & ->)]; [exact K|]. destruct (N i c ord (or_introl eq_refl)).
Qed.
Definition no_build (ev : fevent) : Prop := match ev with FBuild _ _ | FP (PBuild _ _ _) => False | _ => True end.
Lemma fstep_kept u8 F ev F' : no_build ev -> fstep u8 F ev = Some F' -> incl (p_built (f_proj F')) (p_built (f_proj F)) /\ incl (f_objs F') (f_objs F).
Proof.
  intros U S. unfold fstep in S. destruct (fallowed F ev); [|discriminate]. destruct (pexec (f_proj F) (pdelivered u8 F ev)) as [p|] eqn:X; [|discriminate].
  destruct (gdeliver u8 F ev (f_gens F)); [|discriminate]. injection S as <-. cbn [f_proj f_objs]. split.
  - apply (pexec_built _ _ _ X). intros i c ord I. destruct ev as [pe|j|j o|j x]; cbn [pdelivered] in I; try (destruct I; fail).
    + destruct I as [I|[]]. subst pe. exact U.
    + apply in_app_or in I as [I|I]; [apply in_map_iff in I as (y & I & _); discriminate I|].
      destruct (gfails u8 F j x); [destruct I as [I|[]]; discriminate I|destruct I].
  - destruct ev as [pe|j|j o|j x]; try (destruct U; fail); try apply incl_refl. destruct pe; try apply incl_refl. intros ? [].
Qed.
Lemma fexec_kept u8 evs : forall F F', Forall no_build evs -> fexec u8 F evs = Some F' -> incl (p_built (f_proj F')) (p_built (f_proj F)) /\ incl (f_objs F') (f_objs F).
Proof.
  induction evs as [|ev evs IH]; intros F F' U X; cbn [fexec] in X; [injection X as <-; split; apply incl_refl|].
  inversion U as [|? ? U1 U2]; subst. destruct (fstep u8 F ev) as [F1|] eqn:S; [|discriminate]. destruct (fstep_kept _ _ _ _ U1 S) as [K1 K2].
  destruct (IH _ _ U2 X) as [J1 J2]. split; [exact (incl_tran J1 K1)|exact (incl_tran J2 K2)].
Qed.
(** What is built after a run is what the script of the run built. *)
Lemma run_follows rg bd u8 mt0 l files gids objects sessions pre w r run h F :
  shistory rg bd u8 mt0 l files gids objects sessions (pre ++ FP (PRun w r) :: run) h F -> Forall fundisturbed run ->
  exists se, sessions se /\ se_reg se = r /\ Spec_Script.follows objects se F.
Proof.
  intros H U. apply shistory_at in H as (h0 & F0 & F1 & _ & (se & Se & E & (st & R & B) & G) & S & X). exists se. split; [exact Se|]. split; [exact E|].
  assert (U' : Forall no_build (FP (PRun w r) :: run)).
  { constructor; [exact Logic.I|]. apply Forall_forall. intros ev I. pose proof (proj1 (Forall_forall _ _) U ev I) as K.
    destruct ev as [pe| | |]; try exact K; try exact Logic.I. destruct pe; try exact Logic.I. exact K. }
  destruct (fexec_kept u8 (FP (PRun w r) :: run) F0 F U') as [K1 K2]; [cbn [fexec]; rewrite S; exact X|].
  split; [|exact (incl_tran K2 G)]. exists st. split; [exact R|]. intros i c I. exact (B i c (K1 _ I)).
Qed.

(** ** Building the targets *)

Section Chain3.
  Variables (p : Model_Targets.project) (ts : list target).
  Hypotheses (P : proper_dirs p) (T : chain_targets p = Ok ts).

  Lemma source_accepted tc ls u r f : tc = k_config chain_gcc \/ tc = k_config chain_msvc ->
    to_path_string (path_div (path_div (pr_root p) "") r) = f -> 
    filename (path_div (path_div (pr_root p) "") r) = "main.cpp" \/ filename (path_div (path_div (pr_root p) "") r) = "main.c" ->
    (forall x, file_option x = true -> entries x u = []) ->
    exists u', api_run (AE tc (path_div (pr_root p) "") ls) u [AddSource r ""] = Ok u' /\ tracked (cfg_of u') = [f] /\ sources (cfg_of u') = [f].
  Proof.
    intros K F N U. destruct (api_run (AE tc (path_div (pr_root p) "") ls) u [AddSource r ""]) as [u'|] eqn:R.
    - exists u'. split; [reflexivity|]. apply run_adds in R as [_ R].
      assert (S : entries SourceFiles u' = [file_entry (path_div (path_div (pr_root p) "") r)]).
      { rewrite R, U by reflexivity. cbn. unfold below2. cbn [ae_root]. rewrite below_open. reflexivity. }
      assert (Z : forall x, file_option x = true -> x <> SourceFiles -> entries x u' = []).
      { intros x X D. rewrite R, U by exact X. destruct x; try discriminate X; try reflexivity. destruct (D eq_refl). }
      pose proof (Z HeaderFiles eq_refl ltac:(discriminate)) as Z1. pose proof (Z PchFiles eq_refl ltac:(discriminate)) as Z2.
      pose proof (Z LibDeps eq_refl ltac:(discriminate)) as Z3. pose proof (Z CompileDependencies eq_refl ltac:(discriminate)) as Z4.
      pose proof (Z LinkDependencies eq_refl ltac:(discriminate)) as Z5.
      apply (f_equal (map fst)) in S, Z1, Z2, Z3, Z4, Z5. cbn [entries] in S, Z1, Z2, Z3, Z4, Z5. rewrite infos_paths in S, Z1, Z2, Z3, Z4, Z5.
      cbn [map file_entry fst] in S, Z1, Z2, Z3, Z4, Z5.
      unfold tracked, sources, headers, pchs, libs, compile_deps, link_deps, user_of, cfg_of.
      cbn [ts_sources ts_headers ts_pchs ts_libs ts_compile_deps ts_link_deps c_sources c_headers c_pchs c_libs c_compile_deps c_link_deps].
      rewrite !infos_normal, S, Z1, Z2, Z3, Z4, Z5. cbn [map app]. rewrite F, <- F, to_path_string_idem. auto.
    - exfalso. apply run_refused in R as (cl & [<-|[]] & R). cbn [refused] in R. unfold below2 in R. cbn [ae_root ae_tc] in R. rewrite below_open in R.
      unfold is_valid_source, path_extension in R. destruct K as [-> | ->], N as [N|N]; rewrite N in R; vm_compute in R; discriminate R.
  Qed.

  Lemma cpp_named : filename (path_div (path_div (pr_root p) "") (r_cpp p)) = "main.cpp".
  Proof.
    rewrite below_open. unfold r_cpp, gdir. rewrite (proj1 (cpp_dir p P)). rewrite <- (name_cpp p P). destruct P as (_ & R & _ & N).
    exact (relative_name _ _ R (proj2 (cpp_dir p P)) (fun t => proj1 (N t))).
  Qed.
  Lemma c_named : filename (path_div (path_div (pr_root p) "") (r_c p)) = "main.c".
  Proof.
    rewrite below_open. unfold r_c, gdir. rewrite (proj1 (c_dir p P)). rewrite <- (name_c p P). destruct P as (_ & R & _ & N).
    exact (relative_name _ _ R (proj2 (c_dir p P)) (fun t => proj2 (N t))).
  Qed.

  (** Objects that still are as the constructors made them. *)
  Definition untouched (nodes : list (string * node)) (i : string) : Prop :=
    exists n, assoc i nodes = Some n /\ nd_root n = path_div (pr_root p) "" /\ (nd_tc n = k_config chain_gcc \/ nd_tc n = k_config chain_msvc) /\
      forall x, file_option x = true -> entries x (nd_user n) = [].
  Lemma untouched_put nodes i j u : i <> j -> untouched nodes i -> untouched (put_user j u nodes) i.
  Proof.
    intros N (n & A & R). exists n. split; [|exact R]. rewrite assoc_put. destruct (String.eqb_spec i j); [contradiction|]. rewrite A. reflexivity.
  Qed.
  Lemma assoc_put_same nodes i n u : assoc i nodes = Some n -> assoc i (put_user i u nodes) = Some (ND (nd_tc n) (nd_root n) u).
  Proof. intros A. rewrite assoc_put, String.eqb_refl, A. reflexivity. Qed.
  Lemma add_run nodes bl ls i r f rest : untouched nodes i -> to_path_string (path_div (path_div (pr_root p) "") r) = f ->
    filename (path_div (path_div (pr_root p) "") r) = "main.cpp" \/ filename (path_div (path_div (pr_root p) "") r) = "main.c" ->
    exists u, tracked (cfg_of u) = [f] /\ sources (cfg_of u) = [f] /\
      script_run (SS nodes bl) (SCalls i ls [AddSource r ""] :: SBuild i :: rest) = script_run (SS (put_user i u nodes) (bl ++ [(i, u)])) rest.
  Proof.
    intros (n & A & R & K & U) F N. destruct (source_accepted (nd_tc n) ls (nd_user n) r f K F N U) as (u & X & Y1 & Y2).
    exists u. split; [exact Y1|]. split; [exact Y2|]. cbn [script_run script_step ss_nodes]. rewrite A, R, X. cbn [ss_nodes ss_built].
    rewrite (assoc_put_same _ _ _ _ A). reflexivity.
  Qed.
  Lemma part_run nodes bl ls x1 x2 rest : untouched nodes x1 -> untouched nodes x2 -> x1 <> x2 ->
    exists u1 u2, tracked (cfg_of u1) = [main_cpp p] /\ sources (cfg_of u1) = [main_cpp p] /\ tracked (cfg_of u2) = [main_c p] /\ sources (cfg_of u2) = [main_c p] /\
      script_run (SS nodes bl) (part ls (r_cpp p) (r_c p) x1 x2 ++ rest) =
      script_run (SS (put_user x2 u2 (put_user x1 u1 nodes)) (bl ++ [(x1, u1); (x2, u2)])) rest.
  Proof.
    intros U1 U2 N. destruct (add_run nodes bl ls x1 (r_cpp p) _ (SCalls x2 ls [AddSource (r_c p) ""] :: SBuild x2 :: rest) U1 (rel_cpp p P) (or_introl cpp_named)) as (u1 & A1 & A2 & A3).
    destruct (add_run (put_user x1 u1 nodes) (bl ++ [(x1, u1)]) ls x2 (r_c p) _ rest (untouched_put _ _ _ u1 (not_eq_sym N) U2) (rel_c p P) (or_intror c_named)) as (u2 & B1 & B2 & B3).
    exists u1, u2. repeat (split; [assumption|]). cbn [part app] in *. rewrite A3, B3, <- app_assoc. reflexivity.
  Qed.

  Lemma all_untouched i : In i ["[gcc] cpptarget"; "[gcc] ctarget"; "[msvc] cpptarget"; "[msvc] ctarget"] -> untouched (chain_objects ts) i.
  Proof.
    destruct (chain_four p ts T) as (a & b & c & d & E & Q). intros I. rewrite <- (ids p ts a b c d E Q) in I. apply in_map_iff in I as (t & <- & I).
    destruct (of_four p ts a b c d E Q t I) as (tc & n & id & out & K & D).
    exists (ND (te_tc (g_env t)) (te_root (g_env t)) (g_user t)). cbn [nd_root nd_tc nd_user]. split.
    - apply assoc_NoDup_In; [exact (proj1 (chain_new p ts a b c d E Q))|]. unfold chain_objects. apply (in_map (fun t => (g_unique_id t, ND (te_tc (g_env t)) (te_root (g_env t)) (g_user t)))). exact I.
    - rewrite (ct_root _ _ _ _ _ _ K), (ct_tc _ _ _ _ _ _ K). split; [reflexivity|]. split; [destruct D as [-> | ->]; auto|exact (ct_new _ _ _ _ _ _ K)].
  Qed.

  Lemma script_runs ls g m : exists st, script_run (SS (chain_objects ts) []) (script_of p ls g m) = SOk st /\
    map fst (ss_built st) = part_ids g "[gcc] cpptarget" "[gcc] ctarget" ++ part_ids m "[msvc] cpptarget" "[msvc] ctarget" /\
    forall i u, In (i, u) (ss_built st) -> exists f, chain_source p i = Some f /\ tracked (cfg_of u) = [f] /\ sources (cfg_of u) = [f].
  Proof.
    unfold script_of. pose proof (all_untouched "[gcc] cpptarget" ltac:(cbn; tauto)) as Ua. pose proof (all_untouched "[gcc] ctarget" ltac:(cbn; tauto)) as Ub.
    pose proof (all_untouched "[msvc] cpptarget" ltac:(cbn; tauto)) as Uc. pose proof (all_untouched "[msvc] ctarget" ltac:(cbn; tauto)) as Ud.
    revert Ua Ub Uc Ud. generalize (chain_objects ts). intros nodes Ua Ub Uc Ud.
    assert (M : forall nd bl, untouched nd "[msvc] cpptarget" -> untouched nd "[msvc] ctarget" ->
      (forall i u, In (i, u) bl -> exists f, chain_source p i = Some f /\ tracked (cfg_of u) = [f] /\ sources (cfg_of u) = [f]) ->
      exists st, script_run (SS nd bl) (if m then part ls (r_cpp p) (r_c p) "[msvc] cpptarget" "[msvc] ctarget" else []) = SOk st /\
        map fst (ss_built st) = map fst bl ++ part_ids m "[msvc] cpptarget" "[msvc] ctarget" /\
        forall i u, In (i, u) (ss_built st) -> exists f, chain_source p i = Some f /\ tracked (cfg_of u) = [f] /\ sources (cfg_of u) = [f]).
    { intros nd bl V1 V2 B. destruct m.
      - destruct (part_run nd bl ls _ _ [] V1 V2 ltac:(discriminate)) as (u1 & u2 & K1 & K2 & K3 & K4 & R). rewrite app_nil_r in R. eexists. split; [rewrite R; reflexivity|].
        cbn [ss_built]. split; [rewrite map_app; reflexivity|]. intros i u I. apply in_app_or in I as [I|[I|[I|[]]]]; [exact (B i u I)| |]; injection I as <- <-; eexists; (split; [reflexivity|auto]).
      - eexists. split; [reflexivity|]. cbn [ss_built part_ids]. rewrite app_nil_r. auto. }
    destruct g.
    - destruct (part_run nodes [] ls _ _ (if m then part ls (r_cpp p) (r_c p) "[msvc] cpptarget" "[msvc] ctarget" else []) Ua Ub ltac:(discriminate)) as (u1 & u2 & K1 & K2 & K3 & K4 & R).
      rewrite R. apply (M _ ([] ++ [("[gcc] cpptarget", u1); ("[gcc] ctarget", u2)])).
      + repeat (apply untouched_put; [discriminate|]). exact Uc.
      + repeat (apply untouched_put; [discriminate|]). exact Ud.
      + intros i u [I|[I|[]]]; injection I as <- <-; eexists; (split; [reflexivity|auto]).
    - apply (M _ []); [exact Uc|exact Ud|intros i u []].
  Qed.

  (** ** The theorems *)
  Theorem chain_scripts se : chain_session p se ->
    (exists st, script_run (SS (chain_objects ts) []) (se_script se) = SOk st /\
       rg_built (se_reg se) = chain_gids ++ map fst (ss_built st) /\
       forall i u, In (i, u) (ss_built st) -> exists f, chain_source p i = Some f /\ sources (cfg_of u) = [f] /\ tracked (cfg_of u) = [f]) /\
    exists a b, se_gens se = [("cpp_generator", a); ("c_generator", b)] /\ runs_script p "cpp" (main_cpp p) a /\ runs_script p "c" (main_c p) b.
  Proof.
    intros S. destruct (session_of p se S) as (ls & g & m & M1 & M2 & R1 & R2). split.
    - destruct (script_runs ls g m) as (st & X & Y & Z). exists st. rewrite M1. split; [exact X|]. rewrite R1, Y. split; [reflexivity|].
      intros i u I. destruct (Z i u I) as (f & Z1 & Z2 & Z3). exists f. auto.
    - exists (o_cpp p), (o_c p). split; [exact M2|]. unfold runs_script, script_call. 
      pose proof (proj1 (cpp_dir p P)) as C1. pose proof (proj1 (c_dir p P)) as C2. split.
      + unfold o_cpp, cpp_obj. cbn [go_ids]. unfold cpp_command, gdir. rewrite C1. reflexivity.
      + unfold o_c, c_obj. cbn [go_ids]. unfold c_command, gdir. rewrite C2. reflexivity.
  Qed.

  Lemma chain_no_loop se : chain_session p se -> forall i, ~ In (i, i) (rg_edges (se_reg se)).
  Proof.
    intros S i I. destruct (session_of p se S) as (ls & g & m & _ & _ & _ & R). rewrite R in I. apply in_app_or in I as [I|I];
      [destruct g|destruct m]; try (destruct I; fail); destruct I as [I|[I|[]]]; apply pair_equal_spec in I as [<- I]; discriminate I.
  Qed.

  Section Runs.
    Variables (rg : regime) (u8 : string -> N) (mt0 : Model_Target.times) (l : list (string * (tenv * disk))).
    Hypothesis U : unbuilt mt0 ts l.
    Let hist := shistory rg (fun _ => file_blobs) u8 mt0 l (chain_files p) chain_gids (chain_objects ts) (chain_session p).

    Lemma chain_fhistory evs h F : hist evs h F -> fhistory rg (fun _ => file_blobs) u8 mt0 l (chain_files p) chain_gids evs h F.
    Proof.
      destruct (chain_four p ts T) as (a & b & c & d & E & Q).
      apply script_history; [exact (chain_new p ts a b c d E Q)|]. intros se S. exact (chain_covered p ts a b c d P E Q mt0 l se U S).
    Qed.
    Lemma chain_is_fresh : fresh_full mt0 l chain_gids.
    Proof. destruct (chain_four p ts T) as (a & b & c & d & E & Q). exact (chain_fresh p ts a b c d E Q mt0 l U). Qed.
    Lemma chain_built pre w r run h F : hist (pre ++ FP (PRun w r) :: run) h F -> Forall fundisturbed run ->
      exists se, chain_session p se /\ se_reg se = r /\
        (forall id c, In (id, c) (p_built (f_proj F)) -> In id (rg_built r) /\ exists f, chain_source p id = Some f /\ sources c = [f] /\ tracked c = [f]) /\
        (forall j o, In (j, o) (f_objs F) -> In j (rg_built r) /\
           ((j = "cpp_generator" /\ runs_script p "cpp" (main_cpp p) o) \/ (j = "c_generator" /\ runs_script p "c" (main_c p) o))).
    Proof.
      intros H Un. destruct (run_follows _ _ _ _ _ _ _ _ _ _ _ _ _ _ _ H Un) as (se & S & R & (st & X & B) & G). exists se. split; [exact S|]. split; [exact R|].
      destruct (chain_scripts se S) as [(st' & X' & Y & Z) (a & b & A & Ra & Rb)]. rewrite X in X'. injection X' as <-. rewrite R in Y. split.
      - intros id c I. destruct (B id c I) as (u & K & ->). split; [|exact (Z id u K)]. rewrite Y. apply in_or_app. right. apply (in_map fst) in K. exact K.
      - intros j o I. apply G in I. rewrite A in I. rewrite Y. destruct I as [I|[I|[]]]; injection I as <- <-; (split; [apply in_or_app; left; cbn; auto|auto]).
    Qed.

    Theorem chain_current pre w r run h F x :
      hist (pre ++ FP (PRun w r) :: run) h F -> Forall fundisturbed run -> 0 < w ->
      p_run (f_proj F) = Some (w, r, x) -> x_over w (rg_built r) (rg_edges r) x -> p_ok (f_proj F) = true ->
      (forall id e st c, In (id, (e, st)) (p_targets (f_proj F)) -> In (id, c) (p_built (f_proj F)) ->
         (exists f, chain_source p id = Some f /\ sources c = [f]) /\ all_current e c (s_disk st)) /\
      (forall j g o, In (j, g) (f_gens F) -> In (j, o) (f_objs F) ->
         forall k gi, In (k, gi) (go_ids o) -> id_current file_blobs (gd_mt (g_disk g)) (g_disk g) k gi) /\
      one_time F.
    Proof.
      intros H Un W Er O Ok. destruct (chain_built _ _ _ _ _ _ H Un) as (se & S & R & B & G). pose proof (chain_no_loop se S) as L.
      destruct S as (ls & n & cl & g & gt & m & mt & _ & S). rewrite R in S, L.
      destruct (full_run_current rg (fun _ => file_blobs) u8 mt0 l (chain_files p) chain_gids pre w r run h F x n _ (fun _ => file_blobs_lawful) chain_is_fresh
        (chain_fhistory _ _ _ H) Un S L W Er O Ok) as (C1 & C2 & C3).
      split; [|split; [|exact C3]].
      - intros id e st c I J. destruct (B id c J) as (K & f & F1 & F2 & _). split; [exists f; auto|]. exact (proj1 (C1 id e st c I J K)).
      - intros j gs o I J. destruct (G j o J) as [K _]. exact (C2 j gs o I J K).
    Qed.

    Theorem chain_idle pre w r run h F x evs F2 : storable p ->
      hist (pre ++ FP (PRun w r) :: run) h F -> Forall fundisturbed run -> Forall ffull_writes run -> 0 < w ->
      p_run (f_proj F) = Some (w, r, x) -> x_over w (rg_built r) (rg_edges r) x -> p_ok (f_proj F) = true ->
      Forall (fun ev => fagain (p_built (f_proj F)) (f_objs F) ev \/ exists t, ev = FP (PEdit (gen_py p) t)) evs -> fexec u8 F evs = Some F2 ->
      (forall id e st2 c, In (id, (e, st2)) (p_targets (f_proj F2)) -> In (id, c) (p_built (f_proj F)) ->
         exists st, In (id, (e, st)) (p_targets (f_proj F)) /\ s_log st2 = s_log st /\ same_outputs (s_disk st) (s_disk st2)) /\
      (forall j g2 o, In (j, g2) (f_gens F2) -> In (j, o) (f_objs F) ->
         exists g, In (j, g) (f_gens F) /\ g_log g2 = g_log g /\ gd_store (g_disk g2) = gd_store (g_disk g) /\ gd_made (g_disk g2) = gd_made (g_disk g)).
    Proof.
      intros [St1 St2] H Un Fw W Er O Ok Ag X. destruct (chain_built _ _ _ _ _ _ H Un) as (se & S & R & B & G). pose proof (chain_no_loop se S) as L.
      destruct S as (ls & n & cl & g & gt & m & mt & _ & S). rewrite R in S, L.
      refine (full_nothing_to_do rg (fun _ => file_blobs) u8 mt0 l (chain_files p) chain_gids pre w r run h F x n _ evs F2 (fun _ => file_blobs_lawful) chain_is_fresh
        (chain_fhistory _ _ _ H) Un Fw S L W Er O Ok _ _ _ _ X).
      - intros i I. apply in_map_iff in I as ([j c] & <- & I). exact (proj1 (B j c I)).
      - intros i I. apply in_map_iff in I as ([j o] & <- & I). exact (proj1 (G j o I)).
      - intros j o I k gi hd K V. destruct (G j o I) as [_ [[_ Z]|[_ Z]]]; unfold runs_script in Z; rewrite Z in K; destruct K as [K|[]]; injection K as <- <-;
          cbn [gi_handler] in V; injection V as <-; apply strings_handler_sane; assumption.
      - apply Forall_forall. intros ev I. destruct (proj1 (Forall_forall _ _) Ag ev I) as [K|(t & ->)]; [exact K|]. cbn [fagain again].
        assert (N : filename (gen_py p) = "gen.py").
        { unfold gen_py. destruct P as (_ & Rt & _). destruct Rt as (rl & Rl & Fl). rewrite Rl.
          replace (path_div ("/" +++ join "/" rl) "python/gen.py") with (path_div ("/" +++ join "/" (rl ++ ["python"])) "gen.py"); [apply out_name; repeat split; discriminate|].
          change "python/gen.py" with (join "/" ["python"; "gen.py"]). change "gen.py" with (join "/" ["gen.py"]) at 1.
          rewrite !below_abs; [rewrite <- app_assoc; reflexivity| | | | | |]; try discriminate; try exact Fl.
          - repeat constructor; try discriminate.
          - apply Forall_app. split; [exact Fl|]. repeat constructor; discriminate.
          - repeat constructor; discriminate. }
        split.
        + intros id c J D. destruct (B id c J) as (_ & f & F1 & _ & F2'). rewrite F2' in D. destruct D as [D|[]].
          apply source_cases in F1 as [[_ F1]|[_ F1]]; rewrite D in F1; apply (f_equal filename) in F1; rewrite N in F1;
            [rewrite (name_cpp p P) in F1|rewrite (name_c p P) in F1]; discriminate F1.
        + intros j o k gi J K D. destruct (G j o J) as [_ [[_ Z]|[_ Z]]]; unfold runs_script in Z; rewrite Z in K; destruct K as [K|[]]; injection K as <- <-; exact D.
    Qed.
  End Runs.
End Chain3.
