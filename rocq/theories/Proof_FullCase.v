(** Checking concrete histories of programs with targets and generators by
    computation; the program used in the examples. *)
From Verif Require Import Prelude Proof_Prelude Model_Path Model_Schema Model_Command Model_ToolchainConfig Model_Target
  Spec_Target Proof_TargetCase Model_Gen Spec_Gen Proof_GenInv Proof_GenCase Model_Reg Spec_Reg Proof_Reg
  Model_Project Spec_Project Proof_ProjectCase Model_Full Spec_Full.

Definition flaterb (h : fhist) (F : full) (f : string) (t : option N) : bool :=
  match t with
  | Some v => laterb (fh_p h) (f_proj F) f v && forallb (fun x => (gh_next (fh_g h (fst x)) f <=? v)%N) (f_gens F)
  | None => true
  end.
Lemma flaterb_sound h F f t : flaterb h F f t = true -> flater h F f t.
Proof.
  destruct t as [v|]; cbn [flaterb]; intros H.
  - apply andb_true_iff in H as [H1 H2]. split; [exact (laterb_sound _ _ _ _ H1)|]. intros j Hj u [= <-].
    apply in_map_iff in Hj as ([j' g] & E & Hj). cbn [fst] in E. subst j'. rewrite forallb_forall in H2. specialize (H2 _ Hj). apply N.leb_le. exact H2.
  - split; [intros v id K; discriminate|intros j _ v K; discriminate].
Qed.
Definition gwiredb (F : full) (r : reg) : bool :=
  forallb (fun b => forallb (fun f => forallb (fun x =>
    String.eqb b (fst x) || negb (mem_str (fst x) (rg_built r)) ||
    forallb (fun k => negb (mem_str f (inputs_of (snd k)))) (go_ids (snd x)) ||
    mem_str b (preds (rg_edges r) (fst x))) (f_objs F)) (Proof_ProjectCase.writes_of (f_proj F) b)) (rg_built r).
Lemma gwiredb_sound F r : gwiredb F r = true -> gwired F r.
Proof.
  intros H b a f o k g Hb Hw Nb Ha Ho Hk Hf. unfold gwiredb in H. rewrite forallb_forall in H. specialize (H b Hb). rewrite forallb_forall in H.
  specialize (H f (writes_of_complete _ _ _ Hw)). rewrite forallb_forall in H. specialize (H (a, o) Ho). cbn [fst snd] in H.
  apply String.eqb_neq in Nb. apply mem_str_In in Ha. rewrite Nb, Ha in H. cbn [negb orb] in H. apply orb_true_iff in H as [H|H].
  - exfalso. rewrite forallb_forall in H. specialize (H _ Hk). cbn [snd] in H. apply mem_str_In in Hf. rewrite Hf in H. discriminate.
  - apply mem_str_In in H. apply before_edge. unfold preds in H. apply in_map_iff in H as ([d t] & E & H). cbn [fst] in E. subst d.
    apply filter_In in H as [H1 H2]. cbn [snd] in H2. apply String.eqb_eq in H2. subst t. exact H1.
Qed.
Definition at_gen (F : full) (i : string) (P : gstate -> bool) : bool := forallb (fun x => negb (String.eqb (fst x) i) || P (snd x)) (f_gens F).
Lemma at_gen_sound F i P : at_gen F i P = true -> forall g, In (i, g) (f_gens F) -> P g = true.
Proof.
  unfold at_gen. intros H g Hg. rewrite forallb_forall in H. specialize (H _ Hg). cbn [fst snd] in H. rewrite String.eqb_refl in H. exact H.
Qed.
Definition fadmissibleb (rg : regime) (F : full) (h : fhist) (ev : fevent) : bool :=
  match ev with
  | FP pe =>
      padmissibleb rg (f_proj F) (fh_p h) pe &&
      match pe with
      | PEdit f t => forallb (fun x => gadmissibleb rg (fh_g h (fst x)) (snd x) (GEdit f t)) (f_gens F)
      | PRun _ r => gwiredb F r
      | PStep i x (Some t) => forallb (fun y => negb (String.eqb (fst y) i) || flaterb h F (out_file (fst (snd y))) t) (p_targets (f_proj F))
      | PWrite _ f t => flaterb h F f t
      | PStop l => forallb (fun x => negb (grunning (snd x)) || match assoc (fst x) l with Some _ => true | None =>
                     match rg with Forward => true | Quiet => match gh_taint (fh_g h (fst x)) with None => true | Some _ => false end end end) (f_gens F)
      | _ => true
      end
  | FForget i => at_gen F i (fun g => gadmissibleb rg (fh_g h i) g GDropStore)
  | FBuild i o => at_gen F i (fun g => gadmissibleb rg (fh_g h i) g (GStart o))
  | FStep i x =>
      at_gen F i (fun g => gadmissibleb rg (fh_g h i) g x) && nodup_str (map fst (writes_of x)) &&
      forallb (fun w => negb (is_outputb (f_proj F) (fst w)) && flaterb h F (fst w) (snd w)) (writes_of x)
  end.
Lemma fadmissibleb_sound rg bd u8 F h ev F' : (forall i o, ev = FBuild i o -> follows (bd i) o) ->
  (forall i o, ev <> FStep i (GStart o)) ->
  fadmissibleb rg F h ev = true -> fstep u8 F ev = Some F' -> fadmissible rg bd F h ev.
Proof.
  intros Fo Ns H S. destruct ev as [pe|i|i o|i x]; cbn [fadmissibleb fadmissible] in *.
  - apply andb_true_iff in H as [H1 H2]. split.
    + unfold fstep in S. destruct (fallowed _ _); [|discriminate]. cbn [pdelivered pexec] in S.
      destruct (pstep (f_proj F) pe) as [p1|] eqn:E; [|discriminate]. exact (padmissibleb_sound _ _ _ _ _ H1 E).
    + destruct pe as [f t|i|i c ord|w r|i|i y t|i f t|i|i okk|ls]; try exact Logic.I.
      * intros j g Hj. rewrite forallb_forall in H2. specialize (H2 _ Hj). cbn [fst snd] in H2. apply gadmissibleb_sound; [discriminate|exact H2].
      * exact (gwiredb_sound _ _ H2).
      * destruct t as [t|]; [|exact Logic.I]. intros e st Hi _. rewrite forallb_forall in H2. specialize (H2 _ Hi). cbn [fst snd] in H2.
        rewrite String.eqb_refl in H2. exact (flaterb_sound _ _ _ _ H2).
      * intros _. exact (flaterb_sound _ _ _ _ H2).
      * intros j g Hj Ru. rewrite forallb_forall in H2. specialize (H2 _ Hj). cbn [fst snd] in H2. rewrite Ru in H2. cbn [negb orb] in H2.
        destruct (assoc j ls); [exact Logic.I|]. destruct rg; [|left; reflexivity]. destruct (gh_taint _); [discriminate|right; reflexivity].
  - intros g Hg. apply gadmissibleb_sound; [discriminate|]. exact (at_gen_sound _ _ _ H g Hg).
  - intros g Hg. apply gadmissibleb_sound; [intros o' [= <-]; apply (Fo i o eq_refl)|]. exact (at_gen_sound _ _ _ H g Hg).
  - apply andb_true_iff in H as [H H3]. apply andb_true_iff in H as [H1 H2]. split; [|split].
    + intros g Hg. apply gadmissibleb_sound; [intros o ->; destruct (Ns i o eq_refl)|]. exact (at_gen_sound _ _ _ H1 g Hg).
    + exact (Proof_GenInv.nodup_str_NoDup _ H2).
    + intros f t Hw. rewrite forallb_forall in H3. specialize (H3 _ Hw). cbn [fst snd] in H3. apply andb_true_iff in H3 as [A B].
      apply negb_true_iff in A. split; [exact (is_outputb_sound _ _ A)|]. intros _. exact (flaterb_sound _ _ _ _ B).
Qed.
Fixpoint ffollow (rg : regime) (u8 : string -> N) (h : fhist) (F : full) (evs : list fevent) : option (fhist * full) :=
  match evs with
  | [] => Some (h, F)
  | ev :: r =>
      if fadmissibleb rg F h ev then
        match fstep u8 F ev with Some F' => ffollow rg u8 (ftrack u8 F h ev) F' r | None => None end
      else None
  end.
Definition fhist0 (mt0 : times) (l : list (string * (tenv * disk))) : fhist := FH (phist0 l) (fun _ => ghist0 mt0).
(** Programs without blob handlers. *)
Definition plain (ev : fevent) : bool :=
  match ev with FBuild _ o => handlerless o | FStep _ (GStart _) => false | _ => true end.
Lemma ffollow_fhistory rg u8 mt0 l files gids evs : forall pre h F h' F', forallb plain evs = true ->
  fhistory rg (fun _ => no_blobs) u8 mt0 l files gids pre h F -> ffollow rg u8 h F evs = Some (h', F') ->
  fhistory rg (fun _ => no_blobs) u8 mt0 l files gids (pre ++ evs) h' F'.
Proof.
  induction evs as [|ev evs IH]; intros pre h F h' F' Pl H X; cbn [ffollow forallb] in *.
  - injection X as <- <-. rewrite app_nil_r. exact H.
  - apply andb_true_iff in Pl as [P1 P2]. destruct (fadmissibleb rg F h ev) eqn:A; [|discriminate]. destruct (fstep u8 F ev) as [F1|] eqn:S; [|discriminate].
    assert (A' : fadmissible rg (fun _ => no_blobs) F h ev).
    { apply (fadmissibleb_sound _ _ u8 _ _ _ F1); [| |exact A|exact S].
      - intros i o ->. apply handlerless_follows. exact P1.
      - intros i o ->. discriminate. }
    specialize (IH _ _ _ _ _ P2 (fhistory_snoc _ _ _ _ _ _ _ _ _ _ _ _ H A' S) X). rewrite <- app_assoc in IH. exact IH.
Qed.
Lemma ffollow_case rg u8 mt0 l files gids evs (P : full -> bool) : forallb plain evs = true ->
  match ffollow rg u8 (fhist0 mt0 l) (finit mt0 l files gids) evs with Some (_, F) => P F | None => false end = true ->
  exists h F, fhistory rg (fun _ => no_blobs) u8 mt0 l files gids evs h F /\ P F = true.
Proof.
  intros Pl H. destruct (ffollow rg u8 (fhist0 mt0 l) (finit mt0 l files gids) evs) as [[h F]|] eqn:E; [|discriminate].
  exists h, F. split; [|exact H]. exact (ffollow_fhistory rg u8 mt0 l files gids evs [] _ _ h F Pl (fhistory_nil _ _ _ _ _ _ _) E).
Qed.
Lemma fexec_case u8 F evs (P : full -> bool) :
  match fexec u8 F evs with Some F' => P F' | None => false end = true -> exists F', fexec u8 F evs = Some F' /\ P F' = true.
Proof. destruct (fexec u8 F evs) as [F'|]; [|discriminate]. intros H. exists F'. split; [reflexivity|exact H]. Qed.

(** ** The program of the examples: a generator of a header, a library, an
    application that includes the header and is linked with the library, and a
    generator that packs the library. *)
Definition files2 : times := fun f => if mem_str f ["/p/a.cpp"; "/p/l.cpp"; "/p/g.txt"] then Some 1%N else None.
Definition disk2 : disk := DK files2 None (fun _ => None) None None false (fun _ => false) false.
Definition projF : list (string * (tenv * disk)) := [("lib", (eL, disk2)); ("app", (e0, disk2))].
Definition filesF : list (string * list string) := [("gen", ["/p/g.h"]); ("pack", ["/p/pkg"])].
Definition gidsF : list string := ["gen"; "pack"].
Definition oGen : gobj := GO (go_args base0) [("H", GI ["/p/g.txt"] ["/p/g.h"] None)].
Definition oPack : gobj := GO (go_args base0) [("P", GI ["/p/_b/l/l.a"] ["/p/pkg"] None)].
Lemma projF_fresh : fresh_full files2 projF gidsF.
Proof.
  split; [split; [|split]|split].
  - repeat constructor; cbn; intuition discriminate.
  - vm_compute. repeat constructor; cbn; intuition discriminate.
  - intros id e d [H|[H|[]]]; injection H as <- <- <-; (split; [apply templates_okb; vm_compute; reflexivity|]); repeat split.
  - repeat constructor; cbn; intuition discriminate.
  - intros j [<-|[<-|[]]]; cbn; intuition discriminate.
Qed.
Definition progF : list api :=
  [AInit true; ABuild (ViaCall true) "gen" "g" []; ABuild (ViaCall true) "lib" "l" []; ABuild (ViaCall true) "app" "a" [];
   ABuild (ViaCall true) "pack" "k" []; ADep true true "app" "lib"; ADep true true "app" "gen"; ADep true true "pack" "lib"].
Definition regF : reg := REG ["gen"; "lib"; "app"; "pack"] [("lib", "app"); ("gen", "app"); ("lib", "pack")] [].
Lemma regF_registers : registers 20 progF regF.
Proof. exists ["g"; "l"; "a"; "k"]. vm_compute. reflexivity. Qed.
Lemma regF_no_loop : no_loop (rg_edges regF).
Proof. intros x [[= <- K]|[[= <- K]|[[= <- K]|[]]]]; discriminate. Qed.

Definition registrationF : list fevent := map FP registration ++ [FBuild "gen" oGen; FBuild "pack" oPack].
Definition gsteps (id k : string) (w : list (string * option N)) : list fevent :=
  [FP (PBegin id); FStep id GSetup; FStep id (GEnter k); FStep id (GCall k true w); FStep id (GFinish WOk); FP (PEnd id true)].
Definition gidle_steps (id k : string) : list fevent :=
  [FP (PBegin id); FStep id GSetup; FStep id (GEnter k); FStep id (GFinish WOk); FP (PEnd id true)].
(** Everything is made; the packing starts while the application is compiled. *)
Definition first_runF : list fevent :=
  gsteps "gen" "H" [("/p/g.h", Some 2%N)] ++ map FP (build_steps "lib" "/p/l.cpp" true 3) ++
  [FP (PBegin "app"); FP (PStep "app" EvObjCheck None); FP (PBegin "pack"); FStep "pack" GSetup;
   FP (PStep "app" (EvCompile "/p/a.cpp" XOk) None); FStep "pack" (GEnter "P"); FP (PStep "app" EvLinkCheck None);
   FStep "pack" (GCall "P" true [("/p/pkg", Some 4%N)]); FP (PStep "app" (EvLinkExec XOk) (Some (Some 4%N)));
   FP (PStep "app" (EvEnd WOk) None); FP (PEnd "app" true); FStep "pack" (GFinish WOk); FP (PEnd "pack" true)].
(** The source of the library and the input of the header are edited, the process
    having been ended; everything is made again. *)
Definition editF : list fevent := [FP (PStop []); FP (PEdit "/p/l.cpp" (Some 5%N)); FP (PEdit "/p/g.txt" (Some 5%N))] ++ registrationF.
Definition second_runF : list fevent :=
  [FP (PBegin "gen"); FP (PBegin "lib"); FStep "gen" GSetup; FP (PStep "lib" EvObjCheck None); FStep "gen" (GEnter "H");
   FP (PStep "lib" (EvCompile "/p/l.cpp" XOk) None); FStep "gen" (GCall "H" true [("/p/g.h", Some 6%N)]);
   FP (PStep "lib" EvLinkCheck None); FP (PStep "lib" (EvLinkExec XOk) (Some (Some 6%N))); FStep "gen" (GFinish WOk);
   FP (PStep "lib" (EvEnd WOk) None); FP (PEnd "lib" true); FP (PEnd "gen" true)] ++
  gsteps "pack" "P" [("/p/pkg", Some 7%N)] ++ map FP (build_steps "app" "/p/a.cpp" true 8).
Definition idleF : list fevent :=
  FP (PStop []) :: registrationF ++ FP (PRun 3 regF) :: gidle_steps "gen" "H" ++ map FP (idle_steps "lib") ++
  gidle_steps "pack" "P" ++ map FP (idle_steps "app").
(** The callback of the header fails. *)
Definition failing_runF : list fevent :=
  [FP (PBegin "gen"); FStep "gen" GSetup; FStep "gen" (GEnter "H"); FP (PBegin "lib"); FStep "gen" (GCall "H" false [])].
Definition remaining_runF : list fevent :=
  [FP (PStep "lib" EvObjCheck None); FP (PStep "lib" EvLinkCheck None); FP (PStep "lib" (EvEnd WOk) None); FP (PEnd "lib" false);
   FStep "gen" (GFinish WOk); FP (PEnd "gen" false); FP (PBegin "pack"); FStep "pack" GSetup; FP (PEnd "pack" false);
   FP (PBegin "app"); FP (PStep "app" EvObjCheck None); FP (PStep "app" EvLinkCheck None); FP (PStep "app" (EvEnd WOk) None); FP (PEnd "app" false)].

Definition tlogs (F : full) : list nat := map (fun y => length (s_log (snd (snd y)))) (p_targets (f_proj F)).
Definition glogs (F : full) : list nat := map (fun y => length (g_log (snd y))) (f_gens F).
Fixpoint nats_eqb (a b : list nat) : bool :=
  match a, b with [], [] => true | x :: a', y :: b' => Nat.eqb x y && nats_eqb a' b' | _, _ => false end.
Lemma nats_eqb_sound a : forall b, nats_eqb a b = true -> a = b.
Proof.
  induction a as [|x a IH]; intros [|y b]; cbn [nats_eqb]; try discriminate; [reflexivity|].
  intros H. apply andb_true_iff in H as [H1 H2]. apply Nat.eqb_eq in H1 as ->. f_equal. exact (IH b H2).
Qed.
Definition objs_eqb (a : list (string * gobj)) (b : list (string * gobj)) : bool :=
  str_list_eqb (map fst a) (map fst b) && (length a =? length b) &&
  forallb (fun x => gobj_eqb (fst x) (snd x)) (combine (map snd a) (map snd b)).
Lemma objs_eqb_sound a : forall b, objs_eqb a b = true -> a = b.
Proof.
  unfold objs_eqb. induction a as [|[i o] a IH]; intros [|[i' o'] b] H; apply andb_true_iff in H as [H H3]; apply andb_true_iff in H as [H1 H2];
    try discriminate; [reflexivity|]. cbn [map fst snd combine forallb length] in *. apply str_list_eqb_eq in H1. injection H1 as -> H1.
  apply andb_true_iff in H3 as [H3 H4]. apply gobj_eqb_sound in H3 as ->. f_equal. apply IH. rewrite H1, H4. cbn [Nat.eqb] in H2. rewrite H2.
  rewrite (proj2 (str_list_eqb_eq _ _) eq_refl). reflexivity.
Qed.
Definition built_eqb (a b : list (string * cfg)) : bool :=
  str_list_eqb (map fst a) (map fst b) && (length a =? length b) &&
  forallb (fun x => cfg_eqb (fst x) (snd x)) (combine (map snd a) (map snd b)).
Lemma built_eqb_sound a : forall b, built_eqb a b = true -> a = b.
Proof.
  unfold built_eqb. induction a as [|[i o] a IH]; intros [|[i' o'] b] H; apply andb_true_iff in H as [H H3]; apply andb_true_iff in H as [H1 H2];
    try discriminate; [reflexivity|]. cbn [map fst snd combine forallb length] in *. apply str_list_eqb_eq in H1. injection H1 as -> H1.
  apply andb_true_iff in H3 as [H3 H4]. apply cfg_eqb_sound in H3 as ->. f_equal. apply IH. rewrite H1, H4. cbn [Nat.eqb] in H2. rewrite H2.
  rewrite (proj2 (str_list_eqb_eq _ _) eq_refl). reflexivity.
Qed.
