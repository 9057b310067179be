(** A concrete program for Properties_ProjectLive.v. *)
From Verif Require Import Prelude Proof_Prelude Model_Path Model_Schema Spec_Json Proof_Json Proof_Schema Model_Command Spec_Command Proof_Command Model_ToolchainConfig Model_Target
  Spec_Target Proof_TargetLive Proof_TargetCase Model_Reg Spec_Reg Model_Project Spec_Project Proof_Project Proof_Project3 Proof_ProjectCase Spec_ProjectLive Proof_ProjectLive.

Definition goes_wellb (p : project) (ev : pevent) : bool :=
  match ev with
  | PBegin _ | PWrite _ _ _ => true
  | PStep _ (EvPchCheck | EvPchExec XOk | EvObjCheck | EvCompile _ XOk | EvLinkCheck | EvLinkExec XOk | EvEnd WOk) _ => true
  | PEnd _ ok => ok || negb (p_ok p)
  | _ => false
  end.
Lemma goes_wellb_sound p ev : goes_wellb p ev = true -> goes_well p ev.
Proof.
  destruct ev as [| | | | |i ev t| | |i ok|]; cbn; try discriminate; try tauto.
  - destruct ev as [| | | | | | | | |r| |s r| |r|w|n]; try discriminate; try (intros _; exact Logic.I);
      try (destruct r; try discriminate; intros _; exact Logic.I). destruct w; try discriminate; intros _; exact Logic.I.
  - destruct ok; [tauto|]. cbn. intros H. apply negb_true_iff in H. tauto.
Qed.
Definition file_thereb (p : project) (r : reg) (i : string) : bool :=
  forallb (fun x => negb (String.eqb (fst x) i) ||
    forallb (fun y => negb (String.eqb (fst y) i) ||
      forallb (fun f => match d_mt (s_disk (snd (snd x))) f with Some _ => true | None => false end ||
         existsb (fun z => mem_str (fst z) (rg_built r) && mem_str (fst z) (map fst (p_built p)) && String.eqb f (out_file (fst (snd z)))) (p_targets p))
        (tracked (snd y))) (p_built p)) (p_targets p).
Lemma file_thereb_sound p r i : file_thereb p r i = true ->
  forall e st c f, In (i, (e, st)) (p_targets p) -> In (i, c) (p_built p) -> In f (tracked c) ->
    d_mt (s_disk st) f <> None \/
    exists j ej sj cj, In (j, (ej, sj)) (p_targets p) /\ In (j, cj) (p_built p) /\ In j (rg_built r) /\ f = out_file ej.
Proof.
  unfold file_thereb. intros H e st c f Hi Hb Hf. rewrite forallb_forall in H. specialize (H _ Hi). cbn [fst snd] in H.
  rewrite String.eqb_refl in H. cbn [negb orb] in H. rewrite forallb_forall in H. specialize (H _ Hb). cbn [fst snd] in H.
  rewrite String.eqb_refl in H. cbn [negb orb] in H. rewrite forallb_forall in H. specialize (H _ Hf). apply orb_true_iff in H as [H|H].
  - left. destruct (d_mt (s_disk st) f); discriminate.
  - right. apply existsb_exists in H as ([j [ej sj]] & H1 & H2). cbn [fst snd] in H2. apply andb_true_iff in H2 as [H2 H4].
    apply andb_true_iff in H2 as [H2 H3]. apply mem_str_In in H2, H3. apply String.eqb_eq in H4. apply in_map_iff in H3 as ([j' cj] & E & H3).
    cbn in E. subst j'. exists j, ej, sj, cj. auto.
Qed.
Fixpoint smoothb (p : project) (r : reg) (evs : list pevent) : bool :=
  match evs with
  | [] => true
  | ev :: rest => goes_wellb p ev && match ev with PBegin i => file_thereb p r i | _ => true end &&
      match pstep p ev with Some p' => smoothb p' r rest | None => false end
  end.
Lemma phistory_pexec rg l gens before h p : phistory rg l gens before h p -> forall a h1 p1,
  phistory rg l gens (before ++ a) h1 p1 -> pexec p a = Some p1.
Proof.
  intros H. assert (Snoc : forall a ev q, pexec q (a ++ [ev]) = match pexec q a with Some q' => pstep q' ev | None => None end).
  { induction a as [|x a IH]; intros ev q; cbn [pexec app]; [destruct (pstep q ev); reflexivity|]. destruct (pstep q x); [apply IH|reflexivity]. }
  induction a as [|ev a IH] using rev_ind; intros h1 p1 H1.
  - rewrite app_nil_r in H1. destruct (phistory_deterministic _ _ _ _ _ _ _ _ H H1) as [_ ->]. reflexivity.
  - rewrite app_assoc in H1. apply phistory_snoc_inv in H1 as (h2 & p2 & H2 & _ & S & _). rewrite Snoc, (IH _ _ H2). exact S.
Qed.
Lemma smoothb_split r a : forall p ev b p1, smoothb p r (a ++ ev :: b) = true -> pexec p a = Some p1 ->
  goes_wellb p1 ev = true /\ forall i, ev = PBegin i -> file_thereb p1 r i = true.
Proof.
  induction a as [|x a IH]; intros p ev b p1 S X; cbn [app smoothb pexec] in *.
  - injection X as <-. apply andb_true_iff in S as [S _]. apply andb_true_iff in S as [S1 S2]. split; [exact S1|]. intros i ->. exact S2.
  - apply andb_true_iff in S as [_ S]. destruct (pstep p x) as [p2|]; [|discriminate]. exact (IH _ _ _ _ S X).
Qed.
Lemma smoothb_sound rg l gens before h p r evs : phistory rg l gens before h p -> smoothb p r evs = true ->
  smoothly rg l gens before evs /\ files_there rg l gens r before evs.
Proof.
  intros H S. split.
  - intros a ev b h1 p1 E H1. subst evs. apply goes_wellb_sound. exact (proj1 (smoothb_split _ _ _ _ _ _ S (phistory_pexec _ _ _ _ _ _ H _ _ _ H1))).
  - intros a i b h1 p1 E H1. subst evs. apply file_thereb_sound.
    exact (proj2 (smoothb_split _ _ _ _ _ _ S (phistory_pexec _ _ _ _ _ _ H _ _ _ H1)) i eq_refl).
Qed.

Lemma all_name (n : string) : match n with "" => false | String c r => is_name_start c && all_charsb is_name_char r end = true -> field_name n.
Proof.
  destruct n as [|c r]; [discriminate|]. intros H. apply andb_true_iff in H as [H1 H2]. split; [apply is_name_start_spec; exact H1|].
  apply all_charsb_sound. exact H2.
Qed.
Lemma link_nonempty e c n rest v : te_link_command e = "{" +++ n +++ "}" +++ rest -> field_name n ->
  assoc n (default_args e c) = Some v -> v <> "" -> forall ord, link_command e c ord <> FOk "".
Proof.
  intros E F A N ord. unfold link_command, construct. rewrite E, (fscan_field _ _ _ F), assoc_app, A. unfold fprefix.
  destruct (fscan _ _ _); try discriminate. intros [= K]. destruct v; [congruence|discriminate].
Qed.
Lemma usable_lib : usable eL cLib.
Proof.
  split; [split; [|split]|].
  - intros K. destruct (K eq_refl).
  - intros s [<-|[]]. vm_compute. discriminate.
  - apply (link_nonempty eL cLib "archiver" " rcs {output} {compiled_sources}" "ar"); try reflexivity; [|discriminate]. apply all_name; reflexivity.
  - apply store_text_iff. eexists. vm_compute. reflexivity.
Qed.
Lemma usable_app : usable e0 cApp.
Proof.
  split; [split; [|split]|].
  - intros K. destruct (K eq_refl).
  - intros s [<-|[]]. vm_compute. discriminate.
  - apply (link_nonempty e0 cApp "cpp_compiler" " {link_flags} {compiled_sources} -o {output} {lib_dirs} {lib_deps}" "g++"); try reflexivity; [|discriminate]. apply all_name; reflexivity.
  - apply store_text_iff. eexists. vm_compute. reflexivity.
Qed.

Definition builtb (l : list (string * cfg)) : bool :=
  match l with
  | [x; y] => String.eqb (fst x) "lib" && cfg_eqb (snd x) cLib && (String.eqb (fst y) "app" && cfg_eqb (snd y) cApp)
  | _ => false
  end.
Lemma builtb_sound l : builtb l = true -> l = [("lib", cLib); ("app", cApp)].
Proof.
  destruct l as [|[i a] [|[j b] [|]]]; try discriminate. cbn [builtb fst snd]. intros H. apply andb_true_iff in H as [H1 H2].
  apply andb_true_iff in H1 as [H1 H3], H2 as [H2 H4]. apply String.eqb_eq in H1, H2. apply cfg_eqb_sound in H3, H4. subst. reflexivity.
Qed.
Lemma same_envs rg l gens evs h p : phistory rg l gens evs h p ->
  map (fun x => (fst x, fst (snd x))) (p_targets p) = map (fun x => (fst x, fst (snd x))) l.
Proof.
  induction 1 as [|evs h p ev p' _ IH _ S].
  - cbn [pinit p_targets]. rewrite map_map. reflexivity.
  - unfold pstep in S. destruct (process p ev) as [[[b rn] ok]|]; [|discriminate]. destruct (deliver p ev (p_targets p)) as [ts|] eqn:D; [|discriminate].
    injection S as <-. cbn [p_targets]. rewrite (deliver_outs _ _ _ _ D). exact IH.
Qed.
Lemma all_usable rg evs h p : phistory rg proj gens1 evs h p -> builtb (p_built p) = true ->
  forall id e st c, In (id, (e, st)) (p_targets p) -> In (id, c) (p_built p) -> usable e c.
Proof.
  intros H B id e st c Hi Hb. rewrite (builtb_sound _ B) in Hb.
  apply (in_map (fun x => (fst x, fst (snd x)))) in Hi. rewrite (same_envs _ _ _ _ _ _ H) in Hi. cbn [fst snd map proj] in Hi.
  destruct Hb as [Hb|[Hb|[]]]; injection Hb as <- <-; destruct Hi as [Hi|[Hi|[]]]; try discriminate; injection Hi as <-.
  - exact usable_lib.
  - exact usable_app.
Qed.
