(** Checking concrete histories of programs by computation; the program used in
    the examples. *)
From Verif Require Import Prelude Proof_Prelude Model_Path Model_Schema Model_Command Model_ToolchainConfig Model_Target
  Spec_Target Proof_TargetBase Proof_TargetInv Proof_TargetRun Proof_TargetMain Proof_TargetCase Model_Reg Spec_Reg Proof_Reg
  Proof_RegRun Model_Project Spec_Project.

Definition out_eqb (a b : option tgt_art) : bool := match a, b with None, None => true | _, _ => false end.
Definition is_outputb (p : project) (f : string) : bool := existsb (fun x => String.eqb f (out_file (fst (snd x)))) (p_targets p).
Definition laterb (h : phist) (p : project) (f : string) (v : N) : bool :=
  forallb (fun id => (h_next (h id) f <=? v)%N) (map fst (p_targets p)).
Definition writes_of (p : project) (b : string) : list string :=
  flat_map (fun x => if String.eqb (fst x) b then [out_file (fst (snd x))] else []) (p_targets p) ++
  flat_map (fun x => if String.eqb (fst x) b then snd x else []) (p_gens p).
Definition wiredb (p : project) (r : reg) : bool :=
  forallb (fun b => forallb (fun f => forallb (fun x =>
    negb (mem_str (fst x) (rg_built r)) || negb (mem_str f (tracked (snd x))) ||
    mem_str b (preds (rg_edges r) (fst x))) (p_built p)) (writes_of p b)) (rg_built r).

Definition no_changeb (e : tenv) (st : tstate) (x : event) : bool :=
  negb (links e st x) && match x with EvLinkExec _ | EvDelTgt => false | _ => true end.
Definition padmissibleb (rg : regime) (p : project) (h : phist) (ev : pevent) : bool :=
  match ev with
  | PEdit f t => negb (is_outputb p f) && forallb (fun x => admissibleb rg (fst (snd x)) (h (fst x)) (snd (snd x)) (EvEdit f t)) (p_targets p)
  | PForget i => forallb (fun x => negb (String.eqb (fst x) i) || negb (running (snd (snd x)))) (p_targets p)
  | PBuild i c _ => forallb (fun x => negb (String.eqb (fst x) i) || permittedb (fst (snd x)) (h i) c) (p_targets p)
  | PRun _ r => wiredb p r
  | PBegin _ | PFail _ | PEnd _ _ => true
  | PStep i x t =>
      forallb (fun y => negb (String.eqb (fst y) i) ||
        admissibleb rg (fst (snd y)) (h i) (snd (snd y)) x &&
        match t with
        | Some (Some v) => laterb h p (out_file (fst (snd y))) v
        | Some None => match step (fst (snd y)) (snd (snd y)) x with Some st' => out_eqb (d_tgt (s_disk st')) None | None => true end
        | None => no_changeb (fst (snd y)) (snd (snd y)) x
        end) (p_targets p)
  | PWrite _ f t => negb (is_outputb p f) && match t with Some v => laterb h p f v | None => true end
  | PStop l => forallb (fun x => negb (running (snd (snd x))) || match assoc (fst x) l with Some _ => true | None =>
                 match rg with Forward => true | Quiet => match h_taint (h (fst x)) with None => true | Some _ => false end end end) (p_targets p)
  end.

Lemma is_outputb_sound p f : is_outputb p f = false -> ~ is_output p f.
Proof.
  intros H (id & e & st & Hi & ->). unfold is_outputb in H. assert (K : existsb (fun x => String.eqb (out_file e) (out_file (fst (snd x)))) (p_targets p) = true).
  { apply existsb_exists. exists (id, (e, st)). split; [exact Hi|apply String.eqb_refl]. }
  congruence.
Qed.
Lemma laterb_sound h p f v : laterb h p f v = true -> later h p f (Some v).
Proof.
  intros H u id [= <-] Hi. unfold laterb in H. rewrite forallb_forall in H. apply N.leb_le. exact (H id Hi).
Qed.
Lemma writes_of_complete p b f : writes p b f -> In f (writes_of p b).
Proof.
  unfold writes_of. intros [(e & st & H & ->)|(fs & H & K)]; apply in_app_iff; [left|right]; apply in_flat_map.
  - exists (b, (e, st)). split; [exact H|]. cbn [fst snd]. rewrite String.eqb_refl. left. reflexivity.
  - exists (b, fs). split; [exact H|]. cbn [fst snd]. rewrite String.eqb_refl. exact K.
Qed.
Lemma wiredb_sound p r : wiredb p r = true -> wired p r.
Proof.
  intros H b a f c Hb Hw Ha Hc Hf. unfold wiredb in H. rewrite forallb_forall in H. specialize (H b Hb). rewrite forallb_forall in H.
  specialize (H f (writes_of_complete _ _ _ Hw)). rewrite forallb_forall in H. specialize (H (a, c) Hc). cbn [fst snd] in H.
  apply mem_str_In in Ha, Hf. rewrite Ha, Hf in H. cbn [negb orb] in H. apply mem_str_In in H. apply before_edge.
  unfold preds in H. apply in_map_iff in H as ([d t] & E & H). cbn [fst] in E. subst d. apply filter_In in H as [H1 H2].
  cbn [snd] in H2. apply String.eqb_eq in H2. subst t. exact H1.
Qed.
Lemma no_changeb_sound e st x st' : no_changeb e st x = true -> step e st x = Some st' ->
  in_taskflow x = true -> links e st x = false /\ d_tgt (s_disk st') = d_tgt (s_disk st).
Proof.
  unfold no_changeb. intros H S F. apply andb_true_iff in H as [H1 H2]. apply negb_true_iff in H1. split; [exact H1|].
  destruct x; try discriminate; cbn [step] in S; destruct (s_pc st) eqn:Pc; try discriminate.
  - injection S as <-; unfold pch_check; destruct (s_ok st); cbn [negb]; [destruct (pch_pre _ _) as [u b]; destruct b; cbn [negb]; [destruct (_ || _)|]|]; reflexivity.
  - unfold pch_exec in S; destruct (pch_command _ _); try discriminate; injection S as <-; destruct (run_res _ _); reflexivity.
  - injection S as <-; unfold obj_check; destruct (s_ok st); cbn [negb]; [destruct (obj_pre _ _) as [u b]; destruct b; cbn [negb]; [|]|]; try reflexivity;
       match goal with |- context [let '(_, _) := ?t in _] => destruct t as [[sel dum] d'] end; reflexivity.
  - unfold compile_one in S; destruct (take_pending _ _) as [[i rest]|]; try discriminate; destruct (compile_command _ _ _); try discriminate; injection S as <-; destruct (run_res _ _); reflexivity.
  - destruct pending; try discriminate; injection S as <-; unfold link_check; destruct (s_ok st); cbn [negb]; [destruct (link_pre _ _) as [u b]; destruct b; cbn [negb]; [|]|]; try reflexivity; destruct (match s_load st with Some _ => _ | None => _ end); reflexivity.
  - unfold end_task in S; destruct (s_dirty st); [destruct (store_text _)|]; destruct w; try discriminate; try (injection S as <-; reflexivity);
       destruct (short n _); try discriminate; destruct reported_ok; injection S as <-; reflexivity.
Qed.
Lemma padmissibleb_sound rg p h ev p' : padmissibleb rg p h ev = true -> pstep p ev = Some p' -> padmissible rg p h ev.
Proof.
  intros H S. destruct ev as [f t|i|i c ord|w r|i|i x t|i f t|i|i okk|l]; cbn [padmissibleb padmissible] in *.
  - apply andb_true_iff in H as [H1 H2]. apply negb_true_iff in H1. split; [exact (is_outputb_sound _ _ H1)|].
    intros id e st Hi. rewrite forallb_forall in H2. exact (admissibleb_sound _ _ _ _ _ (H2 _ Hi)).
  - intros e st Hi. rewrite forallb_forall in H. specialize (H _ Hi). cbn [fst snd] in H. rewrite String.eqb_refl in H.
    unfold running in H. destruct (s_pc st); try discriminate. reflexivity.
  - intros e st Hi. rewrite forallb_forall in H. specialize (H _ Hi). cbn [fst snd] in H. rewrite String.eqb_refl in H. exact (permittedb_sound _ _ _ H).
  - exact (wiredb_sound _ _ H).
  - exact I.
  - intros e st st' Hi Si. rewrite forallb_forall in H. specialize (H _ Hi). cbn [fst snd] in H. rewrite String.eqb_refl in H. cbn [negb orb] in H.
    apply andb_true_iff in H as [H1 H2]. split; [exact (admissibleb_sound _ _ _ _ _ H1)|].
    assert (Cf : in_taskflow x = true).
    { unfold pstep in S. cbn [process] in S. destruct (p_run p) as [[[w r] y]|]; [|discriminate]. destruct (assoc i (p_targets p)) as [[e1 s1]|]; [|discriminate].
      destruct (assoc i (p_built p)); [|discriminate]. destruct (in_taskflow x); [reflexivity|]. rewrite andb_false_r in S. discriminate. }
    destruct t as [[v|]|].
    + exact (laterb_sound _ _ _ _ H2).
    + rewrite Si in H2. destruct (d_tgt (s_disk st')); [discriminate|reflexivity].
    + exact (no_changeb_sound _ _ _ _ H2 Si Cf).
  - apply andb_true_iff in H as [H1 H2]. apply negb_true_iff in H1. split; [exact (is_outputb_sound _ _ H1)|].
    intros _. destruct t as [v|]; [exact (laterb_sound _ _ _ _ H2)|intros u id K; discriminate].
  - exact I.
  - exact I.
  - intros id e st Hi Ru. rewrite forallb_forall in H. specialize (H _ Hi). cbn [fst snd] in H. rewrite Ru in H. cbn [negb orb] in H.
    destruct (assoc id l); [exact I|]. destruct rg; [|left; reflexivity]. destruct (h_taint (h id)); [discriminate|right; reflexivity].
Qed.

Fixpoint pfollow (rg : regime) (h : phist) (p : project) (evs : list pevent) : option (phist * project) :=
  match evs with
  | [] => Some (h, p)
  | ev :: r =>
      if padmissibleb rg p h ev then
        match pstep p ev with Some p' => pfollow rg (ptrack p h ev) p' r | None => None end
      else None
  end.
Definition phist0 (l : list (string * (tenv * disk))) : phist :=
  fun id => match assoc id l with Some (_, d) => hist0 d | None => HS (fun _ => 0%N) None None false end.
Lemma pfollow_phistory rg l gens evs : forall pre h p h' p',
  phistory rg l gens pre h p -> pfollow rg h p evs = Some (h', p') -> phistory rg l gens (pre ++ evs) h' p'.
Proof.
  induction evs as [|ev evs IH]; intros pre h p h' p' H F; cbn [pfollow] in F.
  - injection F as <- <-. rewrite app_nil_r. exact H.
  - destruct (padmissibleb rg p h ev) eqn:A; [|discriminate]. destruct (pstep p ev) as [p1|] eqn:S; [|discriminate].
    pose proof (padmissibleb_sound _ _ _ _ _ A S) as A'.
    specialize (IH _ _ _ _ _ (phistory_snoc _ _ _ _ _ _ _ _ H A' S) F). rewrite <- app_assoc in IH. exact IH.
Qed.
Lemma pfollow_case rg l gens evs (P : project -> bool) :
  match pfollow rg (phist0 l) (pinit l gens) evs with Some (_, p) => P p | None => false end = true ->
  exists h p, phistory rg l gens evs h p /\ P p = true.
Proof.
  intros H. destruct (pfollow rg (phist0 l) (pinit l gens) evs) as [[h p]|] eqn:F; [|discriminate].
  exists h, p. split; [|exact H]. exact (pfollow_phistory rg l gens evs [] _ _ h p (phistory_nil rg l gens) F).
Qed.
Lemma pexec_case p evs (P : project -> bool) :
  match pexec p evs with Some p' => P p' | None => false end = true -> exists p', pexec p evs = Some p' /\ P p' = true.
Proof. destruct (pexec p evs) as [p'|]; [|discriminate]. intros H. exists p'. split; [reflexivity|exact H]. Qed.

Definition overb (p : project) : bool :=
  match p_run p with
  | Some (_, r, x) => match x_running x with [] => forallb (started (x_log x)) (rg_built r) | _ => false end
  | None => false
  end.
Lemma overb_sound p : overb p = true -> exists w r x, p_run p = Some (w, r, x) /\ x_over w (rg_built r) (rg_edges r) x.
Proof.
  unfold overb. destruct (p_run p) as [[[w r] x]|]; [|discriminate]. destruct (x_running x) as [|i y] eqn:E; [|discriminate]. intros H.
  exists w, r, x. split; [reflexivity|]. intros [i|i ok]; cbn [xstep].
  - destruct (mem_str i (rg_built r)) eqn:M; [|reflexivity]. apply mem_str_In in M. rewrite forallb_forall in H. rewrite (H i M).
    cbn [negb andb]. rewrite andb_false_r. reflexivity.
  - rewrite E. reflexivity.
Qed.

(** ** The program of the examples: a library, an application linked with it
    and a generator of a header. *)
Definition eL : tenv :=
  TE "/p" "/p/_b/l" "l" ".a" tconfig_default "as" "gcc" "g++" "ar" "ld" (te_pch_command e0) (te_compile_command e0)
     "{archiver} rcs {output} {compiled_sources}".
Definition cLib : cfg := CFG ["/p/l.cpp"] [] [] [] [] [] [] [] ["-O1"] [] [] [] [] [] [] [] [].
Definition cApp : cfg := CFG ["/p/a.cpp"] ["/p/g.h"] [] ["/p/_b/l/l.a"] [] [] [] [] ["-O1"] [] [] [] [] [] [] [] [].
Definition files1 : times := fun f => if mem_str f ["/p/a.cpp"; "/p/l.cpp"] then Some 1%N else None.
Definition disk1 : disk := DK files1 None (fun _ => None) None None false (fun _ => false) false.
Definition proj : list (string * (tenv * disk)) := [("lib", (eL, disk1)); ("app", (e0, disk1))].
Definition gens1 : list (string * list string) := [("gen", ["/p/g.h"])].
Lemma proj_fresh : fresh_project files1 proj.
Proof.
  split; [|split].
  - repeat constructor; cbn; intuition discriminate.
  - vm_compute. repeat constructor; cbn; intuition discriminate.
  - intros id e d [H|[H|[]]]; injection H as <- <- <-; (split; [apply templates_okb; vm_compute; reflexivity|]); repeat split.
Qed.
Definition prog1 (deps : list api) : list api :=
  [AInit true; ABuild (ViaCall true) "gen" "g" []; ABuild (ViaCall true) "lib" "l" []; ABuild (ViaCall true) "app" "a" []] ++ deps.
Definition reg1 : reg := REG ["gen"; "lib"; "app"] [("lib", "app"); ("gen", "app")] [].
(** The same without the dependency of the application on the library. *)
Definition reg2 : reg := REG ["gen"; "lib"; "app"] [("gen", "app")] [].
Lemma reg1_registers : registers 20 (prog1 [ADep true true "app" "lib"; ADep true true "app" "gen"]) reg1.
Proof. exists ["g"; "l"; "a"]. vm_compute. reflexivity. Qed.
Lemma reg2_registers : registers 20 (prog1 [ADep true true "app" "gen"]) reg2.
Proof. exists ["g"; "l"; "a"]. vm_compute. reflexivity. Qed.
Lemma reg1_no_loop : no_loop (rg_edges reg1).
Proof. intros x [[= <- K]|[[= <- K]|[]]]; discriminate. Qed.
Lemma reg2_no_loop : no_loop (rg_edges reg2).
Proof. intros x [[= <- K]|[]]; discriminate. Qed.

Definition registration : list pevent := [PBuild "lib" cLib ["/p/l.cpp"]; PBuild "app" cApp ["/p/a.cpp"]].
Definition build_steps (id src : string) (compile : bool) (t : N) : list pevent :=
  PBegin id :: PStep id EvObjCheck None :: (if compile then [PStep id (EvCompile src XOk) None] else []) ++
  [PStep id EvLinkCheck None; PStep id (EvLinkExec XOk) (Some (Some t)); PStep id (EvEnd WOk) None; PEnd id true].
Definition idle_steps (id : string) : list pevent :=
  [PBegin id; PStep id EvObjCheck None; PStep id EvLinkCheck None; PStep id (EvEnd WOk) None; PEnd id true].
Definition gen_steps (t : N) : list pevent := [PBegin "gen"; PWrite "gen" "/p/g.h" (Some t); PEnd "gen" true].
Definition gen_idle : list pevent := [PBegin "gen"; PEnd "gen" true].
(** Everything is built. *)
Definition first_run : list pevent := gen_steps 2 ++ build_steps "lib" "/p/l.cpp" true 3 ++ build_steps "app" "/p/a.cpp" true 4.
(** The source of the library is edited ... *)
Definition edit_lib : list pevent := [PStop []; PEdit "/p/l.cpp" (Some 5%N)] ++ registration.
(** ... and everything is built again, the steps of the generator in between. *)
Definition second_run : list pevent :=
  PBegin "lib" :: PBegin "gen" :: PStep "lib" EvObjCheck None :: PStep "lib" (EvCompile "/p/l.cpp" XOk) None ::
  PEnd "gen" true :: PStep "lib" EvLinkCheck None :: PStep "lib" (EvLinkExec XOk) (Some (Some 6%N)) ::
  PStep "lib" (EvEnd WOk) None :: PEnd "lib" true :: build_steps "app" "/p/a.cpp" false 7.

(** ** A missing dependency *)

Definition edges_eqb (a b : edges) : bool := str_list_eqb (map fst a) (map fst b) && str_list_eqb (map snd a) (map snd b).
Lemma edges_eqb_sound (a b : edges) : edges_eqb a b = true -> a = b.
Proof.
  unfold edges_eqb. intros H. apply andb_true_iff in H as [H1 H2]. apply str_list_eqb_eq in H1, H2.
  revert b H1 H2. induction a as [|[x y] a IH]; intros [|[x' y'] b] H1 H2; try discriminate; [reflexivity|].
  cbn [map fst snd] in *. injection H1 as -> H1. injection H2 as -> H2. f_equal. apply IH; assumption.
Qed.
Definition reg_eqb (a b : reg) : bool :=
  str_list_eqb (rg_built a) (rg_built b) && edges_eqb (rg_edges a) (rg_edges b) && is_nil (rg_tests a) && is_nil (rg_tests b).
Lemma reg_eqb_sound a b : reg_eqb a b = true -> a = b.
Proof.
  destruct a as [a1 a2 a3], b as [b1 b2 b3]. unfold reg_eqb. cbn [rg_built rg_edges rg_tests]. intros H.
  apply andb_true_iff in H as [H H4]. apply andb_true_iff in H as [H H3]. apply andb_true_iff in H as [H1 H2].
  apply str_list_eqb_eq in H1. apply edges_eqb_sound in H2. destruct a3; [|discriminate]. destruct b3; [|discriminate]. subst. reflexivity.
Qed.
Definition tgt_snap (o : option tgt_art) (f : string) : option N := match o with Some k => l_snap k f | None => None end.
Definition unlucky_run : list pevent :=
  PRun 2 reg2 :: gen_idle ++ idle_steps "app" ++ build_steps "lib" "/p/l.cpp" true 6.
Definition staleb (p : project) : bool :=
  match p_run p with Some (w, r, x) => Nat.eqb w 2 && reg_eqb r reg2 && overb p | None => false end && p_ok p &&
  match assoc "app" (p_targets p), assoc "app" (p_built p), assoc "lib" (p_targets p) with
  | Some _, Some c, Some (eb, sb) =>
      cfg_eqb c cApp && mem_str (out_file eb) (libs cApp) &&
      match d_tgt (s_disk sb) with None => false | Some _ => true end &&
      negb (timeb (tgt_snap (p_seen p "app" "lib") "/p/l.cpp") (tgt_snap (d_tgt (s_disk sb)) "/p/l.cpp"))
  | _, _, _ => false
  end.
Lemma timeb_refl a : timeb a a = true.
Proof. destruct a; [apply N.eqb_refl|reflexivity]. Qed.
Lemma unwired_stale : forall rg, exists h0 p0 p x e st eb sb,
  fresh_project files1 proj /\ registers 20 (prog1 [ADep true true "app" "gen"]) reg2 /\
  phistory rg proj gens1 (registration ++ PRun 2 reg1 :: first_run ++ edit_lib) h0 p0 /\
  pexec p0 (PRun 2 reg2 :: gen_idle ++ idle_steps "app" ++ build_steps "lib" "/p/l.cpp" true 6) = Some p /\
  p_run p = Some (2, reg2, x) /\ x_over 2 (rg_built reg2) (rg_edges reg2) x /\ p_ok p = true /\
  In ("app", (e, st)) (p_targets p) /\ In ("app", cApp) (p_built p) /\ In ("lib", (eb, sb)) (p_targets p) /\
  In (out_file eb) (libs cApp) /\ d_tgt (s_disk sb) <> None /\ p_seen p "app" "lib" <> d_tgt (s_disk sb).
Proof.
  intros rg. destruct (pfollow_case rg proj gens1 (registration ++ PRun 2 reg1 :: first_run ++ edit_lib)
    (fun p0 => match pexec p0 unlucky_run with Some p => staleb p | None => false end)) as (h0 & p0 & H & P).
  { destruct rg; vm_compute; reflexivity. }
  apply pexec_case in P as (p & X & P). unfold staleb in P. apply andb_true_iff in P as [P P3]. apply andb_true_iff in P as [P1 P2].
  destruct (p_run p) as [[[w r] x]|] eqn:Er; [|discriminate]. apply andb_true_iff in P1 as [P1 P4]. apply andb_true_iff in P1 as [P1 P5].
  apply Nat.eqb_eq in P1. apply reg_eqb_sound in P5. subst w r. apply overb_sound in P4 as (w & r & x' & E & O). rewrite Er in E. injection E as <- <- <-.
  destruct (assoc "app" (p_targets p)) as [[e st]|] eqn:E1; [|discriminate]. destruct (assoc "app" (p_built p)) as [c|] eqn:E2; [|discriminate].
  destruct (assoc "lib" (p_targets p)) as [[eb sb]|] eqn:E3; [|discriminate]. apply andb_true_iff in P3 as [P3 P6]. apply andb_true_iff in P3 as [P3 P7].
  apply andb_true_iff in P3 as [P3 P8]. apply cfg_eqb_sound in P3. subst c. apply mem_str_In in P8.
  apply assoc_In in E1, E2, E3. exists h0, p0, p, x, e, st, eb, sb. split; [exact proj_fresh|]. split; [exact reg2_registers|]. split; [exact H|].
  split; [exact X|]. split; [exact Er|]. split; [exact O|]. split; [exact P2|]. split; [exact E1|]. split; [exact E2|]. split; [exact E3|].
  split; [exact P8|]. split; [intros K; rewrite K in P7; discriminate|]. intros K. rewrite K, timeb_refl in P6. discriminate.
Qed.
