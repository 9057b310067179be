(** Concrete contents of a library, an application and a generated header. *)
From Verif Require Import Prelude Proof_Prelude Model_Path Model_Json Model_Schema Model_Command Model_ToolchainConfig Model_Target Spec_Target
  Proof_TargetMain Proof_TargetCase Model_Reg Spec_Reg Model_Project Spec_Project Proof_Project3 Proof_ProjectCase
  Spec_Bytes Proof_Bytes Proof_BytesCase Spec_ProjBytes Proof_ProjBytes.

Definition pfill (x : pevent * note) : pevent * note :=
  match x with
  | (PStep i ev m, n) => (PStep i (fst (fill (ev, n))) m, snd (fill (ev, n)))
  | _ => x
  end.
Definition is_someb {A} (o : option A) : bool := match o with Some _ => true | None => false end.
Definition pnotedb (t : tools) (p : project) (b : pbytes) (x : pevent * note) : bool :=
  match x with
  | (PEdit _ (Some _), Contents _) | (PWrite _ _ (Some _), Contents _) => true
  | (PEdit _ (Some _), _) | (PWrite _ _ (Some _), _) => false
  | (PStep i ev m, n) => notedb (ev, n) &&
      match m with Some (Some _) => is_someb (pb_tgt (pwritten t p b (fst (pfill x)) (snd (pfill x))) i) | _ => true end
  | (_, Nothing) => true
  | _ => false
  end.
Lemma pnotedb_sound t p b x : pnotedb t p b x = true -> pnoted t p b (fst (pfill x)) (snd (pfill x)).
Proof.
  destruct x as [ev n]. destruct ev as [f m|i|i c ord|w r|i|i ev m|i f m|i|i okk|ll].
  - destruct m; destruct n; intros H; cbn in H; try discriminate H; cbn [pfill fst snd pnoted]; eauto.
  - destruct n; try discriminate; reflexivity.
  - destruct n; try discriminate; reflexivity.
  - destruct n; try discriminate; reflexivity.
  - destruct n; try discriminate; reflexivity.
  - cbn [pnotedb]. intros H. apply andb_true_iff in H as [H1 H2]. cbn [pfill fst snd] in *. intros e st Hi. cbn zeta. split.
    + exact (notedb_sound e st (ev, n) H1).
    + destruct m as [[v|]|]; try exact Logic.I. intros K. rewrite K in H2. discriminate.
  - destruct m; destruct n; intros H; cbn in H; try discriminate H; cbn [pfill fst snd pnoted]; eauto.
  - destruct n; try discriminate; reflexivity.
  - destruct n; try discriminate; reflexivity.
  - destruct n; try discriminate; reflexivity.
Qed.
Fixpoint bpfollow (t : tools) (rg : regime) (h : phist) (p : project) (b : pbytes) (evs : list (pevent * note)) : option (phist * project * pbytes) :=
  match evs with
  | [] => Some (h, p, b)
  | x :: r =>
      if padmissibleb rg p h (fst (pfill x)) && pnotedb t p b x then
        match pstep p (fst (pfill x)) with
        | Some p' => bpfollow t rg (ptrack p h (fst (pfill x))) p' (pwritten t p b (fst (pfill x)) (snd (pfill x))) r
        | None => None
        end
      else None
  end.
Lemma bpfollow_bph t rg l gens b0 evs : forall pre h p b h' p' b', bphistory t rg l gens b0 pre h p b ->
  bpfollow t rg h p b evs = Some (h', p', b') -> bphistory t rg l gens b0 (pre ++ map pfill evs) h' p' b'.
Proof.
  induction evs as [|x evs IH]; intros pre h p b h' p' b' H F; cbn [bpfollow] in F.
  - injection F as <- <- <-. cbn [map]. rewrite app_nil_r. exact H.
  - destruct (padmissibleb rg p h (fst (pfill x))) eqn:A; [|discriminate]. destruct (pnotedb t p b x) eqn:N; [|discriminate]. cbn [andb] in F.
    destruct (pstep p (fst (pfill x))) as [p1|] eqn:S; [|discriminate].
    pose proof (bph_snoc t rg l gens b0 pre h p b _ _ p1 H (padmissibleb_sound _ _ _ _ _ A S) (pnotedb_sound t p b x N) S) as H1.
    specialize (IH _ _ _ _ _ _ _ H1 F). rewrite <- app_assoc in IH. cbn [map app]. destruct (pfill x). exact IH.
Qed.
Lemma bpfollow_case t rg l gens b0 evs (P : project -> pbytes -> bool) :
  match bpfollow t rg (phist0 l) (pinit l gens) b0 evs with Some (_, p, b) => P p b | None => false end = true ->
  exists h p b, bphistory t rg l gens b0 (map pfill evs) h p b /\ P p b = true.
Proof.
  intros H. destruct (bpfollow _ _ _ _ _ _) as [[[h p] b]|] eqn:F; [|discriminate]. exists h, p, b. split; [|exact H].
  exact (bpfollow_bph t rg l gens b0 evs [] _ _ _ h p b (bph_nil _ _ _ _ _) F).
Qed.

(** ** The toolchain *)
Definition the (r : fres) : string := match r with FOk x => x | _ => "" end.
Definition cc_app : string := Eval vm_compute in the (compile_command e0 cApp "/p/a.cpp").
Definition cc_lib : string := Eval vm_compute in the (compile_command eL cLib "/p/l.cpp").
Definition ld_app : string := Eval vm_compute in the (link_command e0 cApp ["/p/a.cpp"]).
Definition ld_lib : string := Eval vm_compute in the (link_command eL cLib ["/p/l.cpp"]).
Definition tools1 : tools :=
  TOOLS (fun cmd _ F => "")
        (fun cmd F p => if String.eqb cmd cc_app then "o" +++ reading F ["/p/a.cpp"; "/p/g.h"]
                        else if String.eqb cmd cc_lib then "o" +++ reading F ["/p/l.cpp"] else "?")
        (fun cmd F O => if String.eqb cmd ld_app then "exe" +++ reading O [obj_of e0 "/p/a.cpp"] +++ reading F ["/p/_b/l/l.a"]
                        else if String.eqb cmd ld_lib then "lib" +++ reading O [obj_of eL "/p/l.cpp"] else "?").
Definition targets1 : program := [("lib", (eL, cLib)); ("app", (e0, cApp))].

Lemma cmd_app : compile_command e0 cApp "/p/a.cpp" = FOk cc_app. Proof. vm_compute. reflexivity. Qed.
Lemma cmd_lib : compile_command eL cLib "/p/l.cpp" = FOk cc_lib. Proof. vm_compute. reflexivity. Qed.
Lemma lnk_app : link_command e0 cApp ["/p/a.cpp"] = FOk ld_app. Proof. vm_compute. reflexivity. Qed.
Lemma lnk_lib : link_command eL cLib ["/p/l.cpp"] = FOk ld_lib. Proof. vm_compute. reflexivity. Qed.
Lemma cc_diff : String.eqb cc_lib cc_app = false. Proof. vm_compute. reflexivity. Qed.
Lemma ld_diff : String.eqb ld_lib ld_app = false. Proof. vm_compute. reflexivity. Qed.
Lemma one (s : string) ord : Permutation ord [s] -> ord = [s].
Proof. intros P. apply Permutation_sym in P. exact (Permutation_length_1_inv P). Qed.

Lemma tools1_app : reads_declared tools1 e0 cApp.
Proof.
  constructor; cbn [run_pch run_cc run_ld tools1].
  - reflexivity.
  - intros s cmd F G p Is Ec S. change (In s ["/p/a.cpp"]) in Is. destruct Is as [<-|[]]. rewrite cmd_app in Ec. injection Ec as <-. rewrite String.eqb_refl. f_equal.
    apply (reading_incl _ _ _ _ S). vm_compute. tauto.
  - reflexivity.
  - intros ord cmd F G O P Po Ec S1 S2. change (sources cApp) with ["/p/a.cpp"] in *. apply one in Po. subst ord. rewrite lnk_app in Ec. injection Ec as <-.
    rewrite String.eqb_refl. f_equal. f_equal; [apply (reading_incl _ _ _ _ S2)|apply (reading_incl _ _ _ _ S1)]; vm_compute; tauto.
Qed.
Lemma tools1_lib : reads_declared tools1 eL cLib.
Proof.
  constructor; cbn [run_pch run_cc run_ld tools1].
  - reflexivity.
  - intros s cmd F G p Is Ec S. change (In s ["/p/l.cpp"]) in Is. destruct Is as [<-|[]]. rewrite cmd_lib in Ec. injection Ec as <-. rewrite cc_diff, String.eqb_refl. f_equal.
    apply (reading_incl _ _ _ _ S). vm_compute. tauto.
  - reflexivity.
  - intros ord cmd F G O P Po Ec S1 S2. change (sources cLib) with ["/p/l.cpp"] in *. apply one in Po. subst ord. rewrite lnk_lib in Ec. injection Ec as <-.
    rewrite ld_diff, String.eqb_refl. f_equal. apply (reading_incl _ _ _ _ S2). vm_compute. tauto.
Qed.
Lemma targets1_behave : well_behaved tools1 targets1.
Proof.
  assert (OF : forall e c s, sources c = [s] -> order_free tools1 e c).
  { intros e c s E ord ord' cmd cmd' F O P P' L L'. rewrite E in P, P'. apply one in P, P'. subst. rewrite L in L'. injection L' as <-. reflexivity. }
  intros id e c [H|[H|[]]]; injection H as <- <- <-.
  - split; [exact tools1_lib|]. split; [|exact (OF eL cLib "/p/l.cpp" eq_refl)]. split; [|split].
    + vm_compute. congruence.
    + intros s Is. change (In s ["/p/l.cpp"]) in Is. destruct Is as [<-|[]]. rewrite cmd_lib. vm_compute. discriminate.
    + intros ord K. unfold link_command in K. vm_compute in K. discriminate K.
  - split; [exact tools1_app|]. split; [|exact (OF e0 cApp "/p/a.cpp" eq_refl)]. split; [|split].
    + vm_compute. congruence.
    + intros s Is. change (In s ["/p/a.cpp"]) in Is. destruct Is as [<-|[]]. rewrite cmd_app. vm_compute. discriminate.
    + intros ord K. unfold link_command in K. vm_compute in K. discriminate K.
Qed.

(** ** Two histories with the same sources at the end *)
Definition pstart (lib : string) : pbytes :=
  PB (fun f => if String.eqb f "/p/a.cpp" then Some "main" else if String.eqb f "/p/l.cpp" then Some lib else None)
     (fun _ => None) (fun _ _ => None) (fun _ => None).
Lemma pstart_fresh lib : pfresh_start files1 proj (pstart lib).
Proof.
  assert (K : forall f, pb_files (pstart lib) f = None <-> files1 f = None).
  { intros f. unfold pstart, files1. cbn [pb_files]. unfold mem_str. cbn [existsb].
    destruct (String.eqb f "/p/a.cpp"), (String.eqb f "/p/l.cpp"); cbn [orb]; split; congruence. }
  split; [exact K|]. intros id e d [H|[H|[]]]; injection H as <- <- <-; (split; [exact K|]); repeat split.
Qed.
Definition quietly (l : list pevent) : list (pevent * note) :=
  map (fun ev => (ev, match ev with PEdit _ (Some _) => Contents "lib 2" | PWrite _ _ (Some _) => Contents "generated" | _ => Nothing end)) l.
(** Built; the library's source is replaced; a compile fails, leaving half an object; built. *)
Definition failed_run : list (pevent * note) :=
  quietly ([PRun 1 reg1] ++ gen_idle ++ [PBegin "lib"; PStep "lib" EvObjCheck None]) ++
  [(PStep "lib" (EvCompile "/p/l.cpp" (XFail None)) None, Junk "half an object")] ++
  quietly ([PStep "lib" EvLinkCheck None; PStep "lib" (EvEnd WOk) None; PEnd "lib" false; PStop []] ++ registration).
Definition long_way : list (pevent * note) :=
  quietly (registration ++ PRun 2 reg1 :: first_run ++ edit_lib) ++ failed_run ++ quietly (PRun 2 reg1 :: second_run).
(** The same sources built from scratch by one worker, in another order. *)
Definition scratch_run : list pevent :=
  build_steps "lib" "/p/l.cpp" true 2 ++ gen_steps 3 ++ build_steps "app" "/p/a.cpp" true 4.
Definition from_scratch : list (pevent * note) := quietly (registration ++ PRun 1 reg1 :: scratch_run).

Definition built1 (p : project) : bool :=
  match p_built p with [(i, c1); (j, c2)] => String.eqb i "lib" && String.eqb j "app" && cfg_eqb c1 cLib && cfg_eqb c2 cApp | _ => false end.
Lemma built1_sound p : built1 p = true -> p_built p = [("lib", cLib); ("app", cApp)].
Proof.
  unfold built1. destruct (p_built p) as [|[i c1] [|[j c2] [|]]]; try discriminate. intros H.
  apply andb_true_iff in H as [H H4]. apply andb_true_iff in H as [H H3]. apply andb_true_iff in H as [H1 H2].
  apply String.eqb_eq in H1, H2. apply cfg_eqb_sound in H3, H4. subst. reflexivity.
Qed.
Definition runs_reg1 (k : nat) (p : project) : bool :=
  match p_run p with Some (w, r, _) => Nat.eqb w k && reg_eqb r reg1 | None => false end.
Definition result (b : pbytes) : bool :=
  opt_eqb (pb_tgt b "app") (Some "exe<o<main><generated>><lib<o<lib 2>>>") && opt_eqb (pb_files b "/p/g.h") (Some "generated") &&
  opt_eqb (pb_files b "/p/a.cpp") (Some "main") && opt_eqb (pb_files b "/p/l.cpp") (Some "lib 2").
Lemma targets1_in rg evs h p : phistory rg proj gens1 evs h p -> p_built p = [("lib", cLib); ("app", cApp)] ->
  forall id e c, In (id, (e, c)) targets1 <-> In (id, c) (p_built p) /\ In id (rg_built reg1) /\ exists st, In (id, (e, st)) (p_targets p).
Proof.
  intros H B id e c. pose proof (outs_kept rg proj gens1 _ _ _ H) as O. rewrite B.
  assert (K : forall i f, (exists st, In (i, (f, st)) (p_targets p)) <-> In (i, f) [("lib", eL); ("app", e0)]).
  { intros i f. change [("lib", eL); ("app", e0)] with (map (fun x : string * (tenv * disk) => (fst x, fst (snd x))) proj). rewrite <- O. split.
    - intros (st & I). exact (in_map (fun x => (fst x, fst (snd x))) _ _ I).
    - intros I. apply in_map_iff in I as ([j [g st]] & [= -> ->] & I). eauto. }
  rewrite K. unfold targets1. cbn [In rg_built reg1]. split.
  - intros [E|[E|[]]]; injection E as <- <- <-; tauto.
  - intros ([E|[E|[]]] & _ & [E'|[E'|[]]]); injection E as <- <-; first [discriminate E'|injection E' as <-]; tauto.
Qed.

Lemma leaves_case b0 pre w run : forallb (fun x => match x with PBegin _ | PStep _ _ _ | PWrite _ _ _ | PFail _ | PEnd _ _ => true | _ => false end) run = true ->
  0 < w -> pfresh_start files1 proj b0 ->
  match bpfollow tools1 Forward (phist0 proj) (pinit proj gens1) b0 (pre ++ quietly (PRun w reg1 :: run)) with
  | Some (_, p, b) => overb p && p_ok p && built1 p && runs_reg1 w p && result b | None => false end = true ->
  exists b, pleaves tools1 targets1 b /\ result b = true.
Proof.
  intros U W FS H. apply (bpfollow_case tools1 Forward proj gens1 b0 (pre ++ quietly (PRun w reg1 :: run)) (fun p b => overb p && p_ok p && built1 p && runs_reg1 w p && result b)) in H
    as (h & p & b & H & P).
  apply andb_true_iff in P as [P P5]. apply andb_true_iff in P as [P P4]. apply andb_true_iff in P as [P P3]. apply andb_true_iff in P as [P1 P2].
  exists b. split; [|exact P5]. apply overb_sound in P1 as (w' & r & x & Er & Ov). unfold runs_reg1 in P4. rewrite Er in P4.
  apply andb_true_iff in P4 as [P4 P6]. apply Nat.eqb_eq in P4. apply reg_eqb_sound in P6. subst w' r. apply built1_sound in P3.
  destruct (forward_ptells tools1 files1 proj gens1 b0 _ _ _ _ proj_fresh FS ltac:(discriminate) H) as (V & T).
  pose proof (targets1_in _ _ _ _ (bph_phistory _ _ _ _ _ _ _ _ _ H) P3) as Tg.
  rewrite map_app in H, T. unfold quietly in H, T. cbn [map pfill] in H, T.
  exists V, Forward, files1, proj, gens1, b0, (map pfill pre), w, reg1, (map pfill (quietly run)), h, p, x, 20, (prog1 [ADep true true "app" "lib"; ADep true true "app" "gen"]).
  split; [exact proj_fresh|]. split; [exact FS|]. split; [exact T|]. split; [exact H|]. split.
  { apply Forall_forall. intros y I. rewrite map_map in I. apply in_map_iff in I as (z & <- & I). unfold quietly in I. apply in_map_iff in I as (u & <- & I).
    rewrite forallb_forall in U. specialize (U u I). destruct u; try discriminate U; exact Logic.I. }
  split; [exact reg1_registers|]. split; [exact reg1_no_loop|]. split; [exact W|]. split; [exact Er|]. split; [exact Ov|]. split; [exact P2|]. exact Tg.
Qed.
Lemma two_ways : exists b1 b2, pleaves tools1 targets1 b1 /\ result b1 = true /\ pleaves tools1 targets1 b2 /\ result b2 = true.
Proof.
  destruct (leaves_case (pstart "lib 1") (quietly (registration ++ PRun 2 reg1 :: first_run ++ edit_lib) ++ failed_run) 2 second_run) as (b1 & L1 & R1);
    [reflexivity|lia|apply pstart_fresh|vm_compute; reflexivity|].
  destruct (leaves_case (pstart "lib 2") (quietly registration) 1 scratch_run) as (b2 & L2 & R2);
    [reflexivity|lia|apply pstart_fresh|vm_compute; reflexivity|].
  exists b1, b2. auto.
Qed.
Lemma result_inputs b1 b2 : result b1 = true -> result b2 = true -> same_inputs targets1 b1 b2.
Proof.
  assert (K : forall b, result b = true -> pb_files b "/p/g.h" = Some "generated" /\ pb_files b "/p/a.cpp" = Some "main" /\ pb_files b "/p/l.cpp" = Some "lib 2").
  { intros b H. unfold result in H. apply andb_true_iff in H as [H H4]. apply andb_true_iff in H as [H H3]. apply andb_true_iff in H as [_ H2].
    assert (E : forall o s, opt_eqb o (Some s) = true -> o = Some s) by (intros [o|] s Q; cbn in Q; [apply String.eqb_eq in Q; congruence|discriminate]).
    auto. }
  intros H1 H2. destruct (K _ H1) as (A1 & A2 & A3). destruct (K _ H2) as (B1 & B2 & B3).
  intros id e c f [E|[E|[]]] I N; injection E as <- <- <-.
  - assert (Q : f = "/p/l.cpp") by (vm_compute in I; intuition congruence). subst f. congruence.
  - assert (Q : f = "/p/a.cpp" \/ f = "/p/g.h" \/ f = "/p/_b/l/l.a") by (vm_compute in I; intuition congruence). destruct Q as [->|[->| ->]]; try congruence.
    exfalso. apply (N "lib" eL cLib (or_introl eq_refl)). vm_compute. reflexivity.
Qed.

(** ** A source replaced by one of the same age *)
Definition same_age : list (pevent * note) :=
  quietly (registration ++ PRun 2 reg1 :: first_run ++ [PStop []; PEdit "/p/l.cpp" (Some 1%N)] ++ registration ++
    PRun 1 reg1 :: gen_idle ++ idle_steps "lib" ++ idle_steps "app").
Lemma same_age_case : exists h p b, bphistory tools1 Quiet proj gens1 (pstart "lib 1") (map pfill same_age) h p b /\
  (overb p && p_ok p && built1 p && runs_reg1 1 p && opt_eqb (pb_files b "/p/l.cpp") (Some "lib 2") &&
   opt_eqb (pb_tgt b "app") (Some "exe<o<main><generated>><lib<o<lib 1>>>")) = true.
Proof. apply bpfollow_case. vm_compute. reflexivity. Qed.
Lemma same_age_obj : exists h p b, bphistory tools1 Quiet proj gens1 (pstart "lib 1") (map pfill same_age) h p b /\
  (overb p && p_ok p && built1 p && runs_reg1 1 p && opt_eqb (pb_files b "/p/l.cpp") (Some "lib 2") &&
   opt_eqb (pb_obj b "lib" (obj_of eL "/p/l.cpp")) (Some "o<lib 1>")) = true.
Proof. apply bpfollow_case. vm_compute. reflexivity. Qed.
Lemma same_age_stale : exists t mt0 l gens b0 pre w r run h p b x n prog id e st c,
  fresh_project mt0 l /\ pfresh_start mt0 l b0 /\
  bphistory t Quiet l gens b0 (pre ++ (PRun w r, Nothing) :: run) h p b /\ Forall undisturbed_run (map fst run) /\
  registers n prog r /\ (forall i, ~ In (i, i) (rg_edges r)) /\ 0 < w /\
  p_run p = Some (w, r, x) /\ x_over w (rg_built r) (rg_edges r) x /\ p_ok p = true /\
  In (id, (e, st)) (p_targets p) /\ In (id, c) (p_built p) /\ In id (rg_built r) /\
  reads_declared t e c /\ commands_nonempty e c /\ ~ made_from t e c (of_target b id).
Proof.
  destruct same_age_obj as (h & p & b & H & P).
  apply andb_true_iff in P as [P P6]. apply andb_true_iff in P as [P P5]. apply andb_true_iff in P as [P P4]. apply andb_true_iff in P as [P P3].
  apply andb_true_iff in P as [P1 P2]. apply overb_sound in P1 as (w & r & x & Er & Ov). unfold runs_reg1 in P4. rewrite Er in P4.
  apply andb_true_iff in P4 as [P4 P7]. apply Nat.eqb_eq in P4. apply reg_eqb_sound in P7. subst w r. apply built1_sound in P3.
  pose proof (targets1_in _ _ _ _ (bph_phistory _ _ _ _ _ _ _ _ _ H) P3 "lib" eL cLib) as [Tg _].
  destruct (Tg (or_introl eq_refl)) as (Ib & Ir & st & It). destruct (targets1_behave "lib" eL cLib (or_introl eq_refl)) as (RD & CN & _).
  set (run := quietly (gen_idle ++ idle_steps "lib" ++ idle_steps "app")).
  set (pre := quietly (registration ++ PRun 2 reg1 :: first_run ++ [PStop []; PEdit "/p/l.cpp" (Some 1%N)] ++ registration)).
  assert (Es : map pfill same_age = map pfill pre ++ (PRun 1 reg1, Nothing) :: map pfill run) by reflexivity. rewrite Es in H.
  exists tools1, files1, proj, gens1, (pstart "lib 1"), (map pfill pre), 1, reg1, (map pfill run), h, p, b, x, 20,
    (prog1 [ADep true true "app" "lib"; ADep true true "app" "gen"]), "lib", eL, st, cLib.
  split; [exact proj_fresh|]. split; [apply pstart_fresh|]. split; [exact H|]. split; [repeat constructor|]. split; [exact reg1_registers|].
  split; [exact reg1_no_loop|]. split; [lia|]. split; [exact Er|]. split; [exact Ov|]. split; [exact P2|]. split; [exact It|]. split; [exact Ib|]. split; [exact Ir|].
  split; [exact RD|]. split; [exact CN|]. intros (_ & O & _). destruct (O "/p/l.cpp" (or_introl eq_refl)) as (cmd & Ec & Eo).
  rewrite cmd_lib in Ec. injection Ec as <-. unfold of_target in Eo. cbn [b_obj b_files b_pch run_cc tools1] in Eo. rewrite Eo in P6.
  rewrite cc_diff, String.eqb_refl in P6. cbn [reading] in P6.
  destruct (pb_files b "/p/l.cpp") as [y|]; [|discriminate P5]. cbn [opt_eqb] in P5. apply String.eqb_eq in P5. subst y. discriminate P6.
Qed.
