(** Late calls that make no difference, and late calls that are lost. *)
From Verif Require Import Prelude Proof_Prelude Model_Path Model_Json Model_Schema Model_Command Model_ToolchainConfig Model_Target Model_Sync Spec_Sync
  Model_Api Spec_Api Spec_Target Proof_TargetBase Proof_TargetStep Proof_TargetMain Proof_TargetRuns Proof_Api Model_Late Spec_Late Proof_Late Proof_Late2.

(** ** Files that are only looked at *)
Definition recfg (c : cfg) (b : tstate) : tstate :=
  ST (s_disk b) (s_pc b) c (s_ord b) (s_user b) (s_load b) (s_buf b) (s_dirty b) (s_ok b) (s_log b).
Lemma recfg_step e c0 c1 b ev : pch_command e c0 = pch_command e c1 -> (forall s, compile_command e c0 s = compile_command e c1 s) ->
  (forall ord, link_command e c0 ord = link_command e c1 ord) -> s_cfg b = c1 -> (forall c r, ev <> EvStart c r) ->
  step e (recfg c0 b) ev = option_map (recfg c0) (step e b ev) /\ (forall b', step e b ev = Some b' -> s_cfg b' = c1).
Proof.
  intros X Y Z C NS. destruct b as [d pc c r u l bf dy ok lg]. stp. subst c. unfold recfg. destruct ev; cbn [step option_map]; stp.
  - split; [reflexivity|]. intros b' H. injection H as <-. reflexivity.
  - split; [reflexivity|]. intros b' H. injection H as <-. reflexivity.
  - destruct pc; (split; [reflexivity|]); intros b' H; try discriminate H; injection H as <-; reflexivity.
  - split; [reflexivity|]. intros b' H. injection H as <-. reflexivity.
  - split; [reflexivity|]. intros b' H. injection H as <-. reflexivity.
  - split; [reflexivity|]. intros b' H. injection H as <-. reflexivity.
  - split; [reflexivity|]. intros b' H. injection H as <-. reflexivity.
  - exfalso. exact (NS _ _ eq_refl).
  - destruct pc; (split; [try reflexivity|intros b' H; try discriminate H]); unfold pch_check in *; stp.
    + destruct ok; cbn [negb option_map]; stp; [|reflexivity]. destruct (pch_pre (d_mt d) u) as [u2 g]. stp. destruct g; cbn [negb]; stp; [|reflexivity].
      destruct (dy || match l with Some l0 => negb (pch_same l0 u2) | None => true end); reflexivity.
    + injection H as <-. destruct ok; cbn [negb]; stp; [|reflexivity]. destruct (pch_pre (d_mt d) u) as [u2 g]. stp. destruct g; cbn [negb]; stp; [|reflexivity].
      destruct (dy || match l with Some l0 => negb (pch_same l0 u2) | None => true end); reflexivity.
  - destruct pc; (split; [try reflexivity|intros b' H; try discriminate H]); unfold pch_exec in *; stp.
    + rewrite X. destruct (pch_command e c1) as [cmd| |]; try reflexivity. cbn [option_map]. destruct (run_res cmd r0); reflexivity.
    + destruct (pch_command e c1) as [cmd| |]; try discriminate H. injection H as <-. destruct (run_res cmd r0); reflexivity.
  - destruct pc; (split; [try reflexivity|intros b' H; try discriminate H]); unfold obj_check in *; stp.
    + destruct ok; cbn [negb option_map]; stp; [|reflexivity]. destruct (obj_pre (d_mt d) u) as [u2 g]. stp. destruct g; cbn [negb]; stp; [|reflexivity].
      match goal with |- context [let '(_, _) := ?X in _] => destruct X as [[sel dum] dy2] end. reflexivity.
    + injection H as <-. destruct ok; cbn [negb]; stp; [|reflexivity]. destruct (obj_pre (d_mt d) u) as [u2 g]. stp. destruct g; cbn [negb]; stp; [|reflexivity].
      match goal with |- context [let '(_, _) := ?X in _] => destruct X as [[sel dum] dy2] end. reflexivity.
  - destruct pc; (split; [try reflexivity|intros b' H; try discriminate H]); unfold compile_one in *; stp.
    + rewrite Y. destruct (take_pending s pending) as [[i rest]|]; [|reflexivity]. destruct (compile_command e c1 s) as [cmd| |]; try reflexivity.
      cbn [option_map]. destruct (run_res cmd r0); reflexivity.
    + destruct (take_pending s pending) as [[i rest]|]; [|discriminate H]. destruct (compile_command e c1 s) as [cmd| |]; try discriminate H.
      injection H as <-. destruct (run_res cmd r0); reflexivity.
  - destruct pc as [| | | |[|]| |]; (split; [try reflexivity|intros b' H; try discriminate H]); unfold link_check in *; stp.
    + destruct ok; cbn [negb option_map]; stp; [|reflexivity]. destruct (link_pre (d_mt d) u) as [u2 g]. stp. destruct g; cbn [negb]; stp; [|reflexivity].
      destruct (match l with Some l0 => dy || negb (link_same l0 u2) | None => true end); reflexivity.
    + injection H as <-. destruct ok; cbn [negb]; stp; [|reflexivity]. destruct (link_pre (d_mt d) u) as [u2 g]. stp. destruct g; cbn [negb]; stp; [|reflexivity].
      destruct (match l with Some l0 => dy || negb (link_same l0 u2) | None => true end); reflexivity.
  - destruct pc; (split; [try reflexivity|intros b' H; try discriminate H]); unfold link_exec in *; stp.
    + rewrite Z. destruct (link_command e c1 r) as [cmd| |]; try reflexivity. cbn [option_map]. destruct (run_res cmd r0); reflexivity.
    + destruct (link_command e c1 r) as [cmd| |]; try discriminate H. injection H as <-. destruct (run_res cmd r0); reflexivity.
  - destruct pc; (split; [try reflexivity|intros b' H; try discriminate H]); unfold end_task in *; stp.
    + destruct dy; [|destruct w; reflexivity]. destruct (store_text (update_store bf u)) as [tx|]; [|destruct w; reflexivity].
      destruct w; try reflexivity. destruct (short n tx); [|reflexivity]. destruct reported_ok; reflexivity.
    + destruct dy; [|destruct w; try discriminate H; injection H as <-; reflexivity]. destruct (store_text (update_store bf u)) as [tx|].
      * destruct w; [injection H as <-; reflexivity|injection H as <-; reflexivity|]. destruct (short n tx); [|discriminate H]. injection H as <-. destruct reported_ok; reflexivity.
      * destruct w; try discriminate H. injection H as <-. reflexivity.
  - destruct pc; (split; [try reflexivity|intros b' H; try discriminate H]); stp.
    + destruct dy; [|reflexivity]. destruct (bind (store_text (update_store bf u)) (short n)); reflexivity.
    + destruct dy; [|discriminate H]. destruct (bind (store_text (update_store bf u)) (short n)); [|discriminate H]. injection H as <-. reflexivity.
Qed.

Section Looked.
Variables (e : tenv) (t : tcflags) (ls0 ls : listing) (cs0 cs : list call) (u0 u1 : tschema) (ord : list string).
Let a0 := AE (te_tc e) (te_root e) ls0.
Let a1 := AE (te_tc e) (te_root e) ls.
Hypothesis D0 : api_run a0 (new_target t) cs0 = Ok u0.
Hypothesis D1 : api_run a1 u0 cs = Ok u1.
Hypothesis NO : no_new_outputs a1 u0 cs.
Hypothesis LO : only_looked_at a1 cs.
Let c0 := cfg_of u0.
Let c1 := cfg_of u1.

Lemma kept x : ~ In x [HeaderFiles; PchFiles; CompileDependencies; LinkDependencies] -> entries x u1 = entries x u0.
Proof using D1 LO.
  intros N. rewrite (proj2 (run_adds _ _ _ _ D1) x). destruct (added a1 x cs) as [|i l] eqn:E; [apply app_nil_r|].
  exfalso. apply N. apply (LO x). rewrite E. discriminate.
Qed.
Ltac flags x := let E := fresh "E" in assert (E : entries x u1 = entries x u0) by (apply kept; cbn; intuition discriminate); cbn [entries] in E; apply strings_of_inj in E.
Lemma same_args : default_args e c0 = default_args e c1.
Proof using D0 D1 NO LO.
  unfold default_args. pose proof (late_pch e t ls0 ls cs0 cs u0 u1 D0 D1 NO) as Q. unfold c0, c1. rewrite Q.
  rewrite (proper0 e t ls0 cs0 u0 D0), (proper1 e t ls0 ls cs0 cs u0 u1 D0 D1). cbv zeta.
  flags IncludeDirs. flags LibDirs. flags PreprocessorFlags. flags CommonCompileFlags. flags LinkFlags. flags PchCompileFlags. flags PchObjectFlags.
  rewrite E, E0, E1, E2, E3, E4, E5. reflexivity.
Qed.
Lemma same_flags x : select_flags c0 x = select_flags c1 x.
Proof using D0 D1 NO LO.
  unfold select_flags, c0, c1. rewrite (proper0 e t ls0 cs0 u0 D0), (proper1 e t ls0 ls cs0 cs u0 u1 D0 D1). cbv zeta.
  flags AsmCompileFlags. flags CCompileFlags. flags CppCompileFlags. rewrite E, E0, E1. reflexivity.
Qed.
Lemma same_sources : sources c0 = sources c1.
Proof using D0 D1 NO.
  unfold sources, c0, c1. rewrite (proper0 e t ls0 cs0 u0 D0), (proper1 e t ls0 ls cs0 cs u0 u1 D0 D1), (late_sources e ls cs u0 u1 D1 NO). reflexivity.
Qed.
Lemma same_pch : pch_command e c0 = pch_command e c1.
Proof using D0 D1 NO LO. unfold pch_command, contains_cpp. rewrite same_sources, same_args, same_flags. reflexivity. Qed.
Lemma same_compile s : compile_command e c0 s = compile_command e c1 s.
Proof using D0 D1 NO LO. unfold compile_command. rewrite same_args, same_flags. reflexivity. Qed.
Lemma same_link o : link_command e c0 o = link_command e c1 o.
Proof using D0 D1 NO LO.
  unfold link_command. rewrite same_args. unfold c0, c1. rewrite (proper0 e t ls0 cs0 u0 D0), (proper1 e t ls0 ls cs0 cs u0 u1 D0 D1). cbv zeta.
  assert (E : entries LibDeps u1 = entries LibDeps u0) by (apply kept; cbn; intuition discriminate). cbn [entries] in E. apply infos_of_inj in E.
  flags ExternalLibDeps. rewrite E, E0. reflexivity.
Qed.
Lemma same_all : all_commands e c0 ord = all_commands e c1 ord.
Proof using D0 D1 NO LO.
  unfold all_commands. unfold c0, c1. rewrite <- (late_pch e t ls0 ls cs0 cs u0 u1 D0 D1 NO). fold c0 c1. rewrite same_pch, same_link.
  f_equal. f_equal. apply map_ext. exact same_compile.
Qed.

Lemma looked_run run : one_process run -> forall b o l, s_cfg b = c1 -> closed c1 b -> lexec e (LS (recfg c0 b) o) (map LEv run) = Some l ->
  exists b', exec e b run = Some b' /\ l_st l = recfg c0 b' /\ s_cfg b' = c1.
Proof using D0 D1 NO LO.
  induction run as [|ev run IH]; intros NS b o l C K H; cbn [map lexec] in H.
  - injection H as <-. exists b. split; [reflexivity|]. split; [reflexivity|exact C].
  - assert (N1 : forall c r, ev <> EvStart c r) by (intros c r ->; exact (NS c r (or_introl eq_refl))).
    destruct (recfg_step e c0 c1 b ev same_pch same_compile same_link C N1) as [R R2].
    assert (L : exists b1 o1, step e b ev = Some b1 /\ lstep e (LS (recfg c0 b) o) (LEv ev) = Some (LS (recfg c0 b1) o1)).
    { destruct (lstep e (LS (recfg c0 b) o) (LEv ev)) as [l1|] eqn:E; [|discriminate H].
      destruct ev; cbn [lstep l_st] in E.
      12: { unfold recfg at 1 in E. stp. destruct (mem_str s (sources c0)) eqn:M.
            - rewrite R in E. destruct (step e b (EvCompile s r)) as [b1|]; [|discriminate E]. cbn [option_map] in E. injection E as <-. exists b1, false. split; reflexivity.
            - exfalso. unfold late_compile in E. unfold recfg at 1 in E. stp. destruct (s_pc b) as [| | | |pend| |] eqn:PC; try discriminate E.
              destruct (take_pending s pend) as [[i rest]|] eqn:T; [|discriminate E]. apply take_pending_In in T as [T _].
              destruct K as [_ K]. specialize (K pend s PC T). rewrite <- same_sources in K. apply mem_str_In in K. congruence. }
      all: rewrite R in E; match type of E with context [option_map _ ?X] => destruct X as [b1|]; [|discriminate E] end; cbn [option_map] in E; injection E as <-;
        eexists; eexists; split; reflexivity. }
    destruct L as (b1 & o1 & S1 & L1). rewrite L1 in H.
    destruct (IH (fun c r I => NS c r (or_intror I)) b1 o1 l (R2 b1 S1) (closed_step e c1 b ev b1 N1 K S1) H) as (b2 & E2 & C2).
    exists b2. split; [|exact C2]. cbn [exec]. rewrite S1. exact E2.
Qed.
Theorem looked_same st run l : one_process run -> lexec e (LS st false) (late_run e u0 ord ls cs run) = Some l ->
  exists st', exec e st (EvStart c1 ord :: run) = Some st' /\ l_st l = recfg c0 st' /\ s_cfg st' = c1.
Proof using D0 D1 NO LO.
  intros NS H. apply late_begin in H as (sa & PC & SA & ES & [(u & R & H)|[R H]]); rewrite (proper0 e t ls0 cs0 u0 D0) in R; unfold a1 in D1; rewrite D1 in R; [|discriminate R].
  injection R as <-. unfold start in SA. fold c0 in SA, ES. rewrite same_sources, same_all in SA.
  cbn [exec step]. rewrite PC. unfold start. destruct (negb (ord_ok ord (sources c1)) || existsb is_fother (all_commands e c1 ord)); [discriminate SA|].
  destruct (forallb is_fok (all_commands e c1 ord)); [|exfalso].
  - clear SA. subst sa. apply (looked_run run NS) with (o := true).
    + reflexivity.
    + split; [stp; apply like_user|]. stp. intros p s X. destruct (contains_pch c1); discriminate X.
    + assert (Q : contains_pch c1 = contains_pch c0) by exact (late_pch e t ls0 ls cs0 cs u0 u1 D0 D1 NO).
      assert (U : user_of c1 = u1) by exact (proper1 e t ls0 ls cs0 cs u0 u1 D0 D1).
      unfold recfg. stp. rewrite Q, U. exact H.
  - rewrite ES in SA. apply (f_equal (fun x => match x with Some y => s_ok y | None => false end)) in SA. discriminate SA.
Qed.
End Looked.

(** ** Lost calls *)

(** A run that only checks: the same course, artifacts and log untouched. *)
Definition only_checks (ev : event) : Prop :=
  match ev with EvPchCheck | EvObjCheck | EvLinkCheck | EvEnd WOk => True | _ => False end.
Record parallel (a b : tstate) : Prop := {
  pa_same : same_course a b; pa_cfg : s_cfg a = s_cfg b; pa_ord : s_ord a = s_ord b }.
Definition artifacts (d : disk) := (d_pch d, d_obj d, d_tgt d, d_pch_bad d, d_obj_bad d, d_tgt_bad d).
Lemma check_step e a b ev b' : only_checks ev -> parallel a b -> step e b ev = Some b' ->
  exists a', step e a ev = Some a' /\ parallel a' b' /\ s_log a' = s_log a /\ artifacts (s_disk a') = artifacts (s_disk a).
Proof.
  intros OC [[Hpc Hok Hu Hl Hb Hd Hm Hs Hg] C O] H.
  destruct a as [[mt p ob t st pb obb tb] pc c r u l bf dy ok lg], b as [[mt' p' ob' t' st' pb' obb' tb'] pc' c' r' u' l' bf' dy' ok' lg']. stp. subst.
  destruct ev; try (destruct OC; fail); cbn [step] in H |- *; stp.
  - destruct pc'; try discriminate H. injection H as <-. eexists. split; [reflexivity|]. unfold pch_check. stp.
    destruct ok'; cbn [negb]; stp; [|repeat split; exact Hg].
    destruct (pch_pre mt' u') as [u2 g]. stp. destruct g; cbn [negb]; stp; [|repeat split; exact Hg].
    destruct (dy' || match l' with Some l0 => negb (pch_same l0 u2) | None => true end); stp; repeat split; exact Hg.
  - destruct pc'; try discriminate H. injection H as <-. eexists. split; [reflexivity|]. unfold obj_check. stp.
    destruct ok'; cbn [negb]; stp; [|repeat split; exact Hg].
    destruct (obj_pre mt' u') as [u2 g]. stp. destruct g; cbn [negb]; stp; [|repeat split; exact Hg].
    match goal with |- context [let '(_, _) := ?X in _] => destruct X as [[sel dum] dy2] end. stp. repeat split; exact Hg.
  - destruct pc' as [| | | |[|]| |]; try discriminate H. injection H as <-. eexists. split; [reflexivity|]. unfold link_check. stp.
    destruct ok'; cbn [negb]; stp; [|repeat split; exact Hg].
    destruct (link_pre mt' u') as [u2 g]. stp. destruct g; cbn [negb]; stp; [|repeat split; exact Hg].
    match goal with |- context [if ?X then PcLinkExec else _] => destruct X end; stp; repeat split; exact Hg.
  - destruct w; try (destruct OC; fail). destruct pc'; try discriminate H. unfold end_task in *. stp. destruct dy'.
    + destruct (store_text (update_store bf' u')) as [tx|]; injection H as <-; eexists; (split; [reflexivity|]); stp; repeat split; exact Hg.
    + injection H as <-. eexists. split; [reflexivity|]. repeat split; exact Hg.
Qed.
Lemma check_run e evs : Forall only_checks evs -> forall a b b', parallel a b -> exec e b evs = Some b' ->
  exists a', exec e a evs = Some a' /\ parallel a' b' /\ s_log a' = s_log a /\ artifacts (s_disk a') = artifacts (s_disk a).
Proof.
  intros F. induction F as [|ev evs OC F IH]; intros a b b' Q H; cbn [exec] in *.
  - injection H as <-. exists a. split; [reflexivity|]. split; [exact Q|]. split; reflexivity.
  - destruct (step e b ev) as [b1|] eqn:E; [|discriminate H]. destruct (check_step e a b ev b1 OC Q E) as (a1 & A1 & Q1 & L1 & T1).
    destruct (IH a1 b1 b' Q1 H) as (a2 & A2 & Q2 & L2 & T2). exists a2. rewrite A1. split; [exact A2|]. split; [exact Q2|]. split; congruence.
Qed.
Lemma idle_parallel e c ord a b b' : same_course a b -> exec e b (idle_run c ord) = Some b' -> s_ok b' = true ->
  exists a', exec e a (idle_run c ord) = Some a' /\ same_course a' b' /\ s_log a' = s_log a /\ artifacts (s_disk a') = artifacts (s_disk a).
Proof.
  intros SC H OK. unfold idle_run in *. cbn [exec step] in *. rewrite (sc_pc _ _ SC). destruct (s_pc b) eqn:PC; try discriminate H.
  unfold start in *. destruct (negb (ord_ok ord (sources c)) || existsb is_fother (all_commands e c ord)); [discriminate H|].
  assert (FC : Forall only_checks ((if contains_pch c then [EvPchCheck] else []) ++ [EvObjCheck; EvLinkCheck; EvEnd WOk])).
  { apply Forall_app. split; [destruct (contains_pch c)|]; repeat constructor. }
  destruct (forallb is_fok (all_commands e c ord)).
  - assert (SD : stored (s_disk a) = stored (s_disk b)) by (unfold stored; rewrite (sc_store _ _ SC); reflexivity).
    rewrite SD.
    match type of H with exec e ?Y _ = _ => match goal with |- context [exec e ?X _] => assert (Q : parallel X Y) end end.
    { constructor; [constructor| |]; stp; try reflexivity; [exact (sc_files _ _ SC)|exact (sc_store _ _ SC)|exact (sc_log _ _ SC)]. }
    destruct (check_run e _ FC _ _ b' Q H) as (a' & A & Q' & L' & T'). exists a'. split; [exact A|]. split; [exact (pa_same _ _ Q')|]. split; [exact L'|exact T'].
  - exfalso. cbn [app exec] in H. destruct (contains_pch c); cbn [app exec step] in H; stp; rewrite PC in H; discriminate H.
Qed.

Lemma executed rg e d0 evs h st : history rg e d0 evs h st -> exec e (init d0) evs = Some st.
Proof.
  intros H. induction H as [|evs h st ev st' _ IH _ S]; [reflexivity|]. rewrite exec_app, IH. cbn [exec]. rewrite S. reflexivity.
Qed.
Theorem late_lost e t ls0 ls cs0 cs u0 u1 ord rg d0 evs h st run h' st' l :
  templates_ok e -> api_run (AE (te_tc e) (te_root e) ls0) (new_target t) cs0 = Ok u0 -> api_run (AE (te_tc e) (te_root e) ls) u0 cs = Ok u1 ->
  no_new_outputs (AE (te_tc e) (te_root e) ls) u0 cs -> commands_fine e (cfg_of u0) ord -> commands_fine e (cfg_of u1) ord ->
  history rg e d0 evs h st -> one_process run ->
  history rg e d0 ((evs ++ EvStart (cfg_of u1) ord :: run) ++ [EvEnd WOk]) h' st' -> h_edited h' = false ->
  lexec e (LS st false) (late_run e u0 ord ls cs (run ++ [EvEnd WOk])) = Some l -> s_ok (l_st l) = true ->
  exists st2, exec e (l_st l) (idle_run (cfg_of u1) ord) = Some st2 /\ s_ok st2 = true /\ s_pc st2 = Idle /\
    s_log st2 = s_log (l_st l) /\ s_disk st2 = s_disk (l_st l).
Proof.
  intros T D0 D1 NO F0 F1 H NS H' ED X OK.
  assert (NS' : one_process (run ++ [EvEnd WOk])).
  { intros c o I. apply in_app_or in I as [I|[I|[]]]; [exact (NS c o I)|discriminate I]. }
  destruct (late_same_course e t ls0 ls cs0 cs u0 u1 ord D0 D1 NO F0 F1 st _ l NS' X) as (b & B & SC & CB).
  assert (EQ : b = st').
  { pose proof (executed _ _ _ _ _ _ H') as Y. rewrite <- app_assoc, exec_app, (executed _ _ _ _ _ _ H) in Y.
    change ((EvStart (cfg_of u1) ord :: run) ++ [EvEnd WOk]) with (EvStart (cfg_of u1) ord :: run ++ [EvEnd WOk]) in Y. rewrite B in Y. injection Y as Y. exact Y. }
  subst b. assert (OO : ord_ok ord (sources (s_cfg st')) = true).
  { rewrite CB. cbn [exec step] in B. destruct (s_pc st); try discriminate B. destruct (start e st (cfg_of u1) ord) as [sa|] eqn:E; [|discriminate B].
    exact (proj1 (start_fine _ _ _ _ _ F1 E)). }
  rewrite (sc_ok _ _ SC) in OK.
  destruct (idle_run_succeeds rg e d0 _ h' st' ord T H' OK ED OO) as (b2 & E2 & K2 & P2 & L2 & M2). rewrite CB in E2.
  destruct (idle_parallel e _ _ _ _ _ SC E2 K2) as (a2 & A2 & S2 & G2 & V2).
  exists a2. split; [exact A2|]. split; [rewrite (sc_ok _ _ S2); exact K2|]. split; [rewrite (sc_pc _ _ S2); exact P2|]. split; [exact G2|].
  destruct (s_disk a2) as [m p o x s pb ob tb] eqn:Z, (s_disk (l_st l)) as [m' p' o' x' s' pb' ob' tb'] eqn:Z'. cbn [artifacts d_pch d_obj d_tgt d_pch_bad d_obj_bad d_tgt_bad] in V2.
  pose proof (sc_files _ _ S2) as I1. pose proof (sc_store _ _ S2) as I2. rewrite M2, <- (sc_files _ _ SC) in I1. rewrite M2, <- (sc_store _ _ SC) in I2.
  rewrite Z, Z' in I1, I2. cbn [d_mt d_store] in I1, I2. injection V2 as -> -> -> -> -> ->. rewrite I1, I2. reflexivity.
Qed.
(** The files that are only looked at: everything is current as described. *)
Theorem looked_current e t ls0 ls cs0 cs u0 u1 ord d0 evs h st run w h' st' l :
  templates_ok e -> api_run (AE (te_tc e) (te_root e) ls0) (new_target t) cs0 = Ok u0 -> api_run (AE (te_tc e) (te_root e) ls) u0 cs = Ok u1 ->
  no_new_outputs (AE (te_tc e) (te_root e) ls) u0 cs -> only_looked_at (AE (te_tc e) (te_root e) ls) cs ->
  history Quiet e d0 evs h st -> one_process run ->
  history Quiet e d0 ((evs ++ EvStart (cfg_of u1) ord :: run) ++ [EvEnd w]) h' st' ->
  lexec e (LS st false) (late_run e u0 ord ls cs (run ++ [EvEnd w])) = Some l -> s_ok (l_st l) = true ->
  all_current e (cfg_of u1) (s_disk (l_st l)).
Proof.
  intros T D0 D1 NO LO H NS H' X OK.
  assert (NS' : one_process (run ++ [EvEnd w])).
  { intros c o I. apply in_app_or in I as [I|[I|[]]]; [exact (NS c o I)|discriminate I]. }
  destruct (looked_same e t ls0 ls cs0 cs u0 u1 ord D0 D1 NO LO st _ l NS' X) as (b & B & R & CB).
  assert (EQ : b = st').
  { pose proof (executed _ _ _ _ _ _ H') as Y. rewrite <- app_assoc, exec_app, (executed _ _ _ _ _ _ H) in Y.
    change ((EvStart (cfg_of u1) ord :: run) ++ [EvEnd w]) with (EvStart (cfg_of u1) ord :: run ++ [EvEnd w]) in Y. rewrite B in Y. injection Y as Y. exact Y. }
  subst b. rewrite R in OK |- *. unfold recfg in OK |- *. stp.
  rewrite <- CB. split; [exact (quiet_pch e d0 _ w h' st' T H' OK)|]. split; [exact (quiet_objects e d0 _ w h' st' T H' OK)|exact (quiet_target e d0 _ w h' st' T H' OK)].
Qed.
