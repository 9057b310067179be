(** A concrete program for Properties_FullLive.v. *)
From Verif Require Import Prelude Proof_Prelude Model_Path Model_Schema Spec_Json Model_Command Model_ToolchainConfig Model_Target
  Spec_Target Proof_TargetCase Model_Gen Spec_Gen Proof_GenCase Spec_GenLive Proof_GenLive Model_Reg Spec_Reg Model_Project Spec_Project
  Proof_ProjectCase Spec_ProjectLive Proof_ProjectLive Proof_ProjectLiveCase Model_Full Spec_Full Proof_Full2 Proof_Full3 Proof_FullCase Spec_FullLive Proof_FullLive.

(** Callbacks of the examples delete nothing. *)
Definition ggoodb (x : gevent) : bool :=
  match x with
  | GSetup | GEnter _ | GFinish WOk => true
  | GCall _ ok w => ok && forallb (fun y => match snd y with Some _ => true | None => false end) w
  | _ => false
  end.
Lemma ggoodb_sound o x : ggoodb x = true -> gown x /\ ggood o x.
Proof.
  destruct x as [| | | | | | |id ok w|w|]; cbn; try discriminate; try (intros _; split; exact Logic.I).
  - intros H. apply andb_true_iff in H as [-> H]. split; [exact Logic.I|]. split; [reflexivity|]. intros f t Hf. left. rewrite forallb_forall in H.
    specialize (H _ Hf). cbn in H. destruct t; discriminate.
  - destruct w; try discriminate. intros _. split; exact Logic.I.
Qed.
Definition fgoes_wellb (F : full) (ev : fevent) : bool :=
  match ev with FP pe => goes_wellb (f_proj F) pe | FStep _ x => ggoodb x | _ => false end.
Lemma fgoes_wellb_sound F ev : fgoes_wellb F ev = true -> fgoes_well F ev.
Proof.
  destruct ev as [pe| | |i x]; cbn; try discriminate; [apply goes_wellb_sound|]. intros H.
  split; [exact (proj1 (ggoodb_sound (GO [] []) _ H))|]. intros o _. exact (proj2 (ggoodb_sound o _ H)).
Qed.
Definition ginput_thereb (F : full) (r : reg) (i : string) : bool :=
  forallb (fun x => negb (String.eqb (fst x) i) ||
    forallb (fun y => negb (String.eqb (fst y) i) ||
      forallb (fun k => forallb (fun f => match gd_mt (g_disk (snd x)) f with Some _ => true | None => false end ||
         existsb (fun z => mem_str (fst z) (rg_built r) && mem_str (fst z) (map fst (p_built (f_proj F))) && String.eqb f (out_file (fst (snd z)))) (p_targets (f_proj F)))
        (inputs_of (snd k))) (go_ids (snd y))) (f_objs F)) (f_gens F).
Lemma ginput_thereb_sound F r i : ginput_thereb F r i = true ->
  forall g o k gi f, In (i, g) (f_gens F) -> In (i, o) (f_objs F) -> In (k, gi) (go_ids o) -> In f (inputs_of gi) ->
    gd_mt (g_disk g) f <> None \/ made_by_target (f_proj F) r f.
Proof.
  unfold ginput_thereb. intros H g o k gi f Hi Hb Hk Hf. rewrite forallb_forall in H. specialize (H _ Hi). cbn [fst snd] in H.
  rewrite String.eqb_refl in H. cbn [negb orb] in H. rewrite forallb_forall in H. specialize (H _ Hb). cbn [fst snd] in H.
  rewrite String.eqb_refl in H. cbn [negb orb] in H. rewrite forallb_forall in H. specialize (H _ Hk). cbn [snd] in H.
  rewrite forallb_forall in H. specialize (H _ Hf). apply orb_true_iff in H as [H|H].
  - left. destruct (gd_mt (g_disk g) f); discriminate.
  - right. apply existsb_exists in H as ([j [ej sj]] & H1 & H2). cbn [fst snd] in H2. apply andb_true_iff in H2 as [H2 H4].
    apply andb_true_iff in H2 as [H2 H3]. apply mem_str_In in H2, H3. apply String.eqb_eq in H4. apply in_map_iff in H3 as ([j' cj] & E & H3).
    cbn in E. subst j'. exists j, ej, sj, cj. auto.
Qed.
Fixpoint fsmoothb (u8 : string -> N) (F : full) (r : reg) (evs : list fevent) : bool :=
  match evs with
  | [] => true
  | ev :: rest => fgoes_wellb F ev && match ev with FP (PBegin i) => file_thereb (f_proj F) r i && ginput_thereb F r i | _ => true end &&
      match fstep u8 F ev with Some F' => fsmoothb u8 F' r rest | None => false end
  end.
Lemma fhistory_fexec rg bd u8 mt0 l files gids before h F : fhistory rg bd u8 mt0 l files gids before h F -> forall a h1 F1,
  fhistory rg bd u8 mt0 l files gids (before ++ a) h1 F1 -> fexec u8 F a = Some F1.
Proof.
  intros H. assert (Snoc : forall a ev q, fexec u8 q (a ++ [ev]) = match fexec u8 q a with Some q' => fstep u8 q' ev | None => None end).
  { induction a as [|x a IH]; intros ev q; cbn [fexec app]; [destruct (fstep u8 q ev); reflexivity|]. destruct (fstep u8 q x); [apply IH|reflexivity]. }
  induction a as [|ev a IH] using rev_ind; intros h1 F1 H1.
  - rewrite app_nil_r in H1. destruct (fhistory_deterministic _ _ _ _ _ _ _ _ _ _ _ _ H H1) as [_ ->]. reflexivity.
  - rewrite app_assoc in H1. apply fhistory_snoc_inv in H1 as (h2 & p2 & H2 & _ & S & _). rewrite Snoc, (IH _ _ H2). exact S.
Qed.
Lemma fsmoothb_split u8 r a : forall F ev b F1, fsmoothb u8 F r (a ++ ev :: b) = true -> fexec u8 F a = Some F1 ->
  fgoes_wellb F1 ev = true /\ forall i, ev = FP (PBegin i) -> file_thereb (f_proj F1) r i = true /\ ginput_thereb F1 r i = true.
Proof.
  induction a as [|x a IH]; intros F ev b F1 S X; cbn [app fsmoothb fexec] in *.
  - injection X as <-. apply andb_true_iff in S as [S _]. apply andb_true_iff in S as [S1 S2]. split; [exact S1|]. intros i ->. apply andb_true_iff. exact S2.
  - apply andb_true_iff in S as [_ S]. destruct (fstep u8 F x) as [F2|]; [|discriminate]. exact (IH _ _ _ _ S X).
Qed.
Lemma fsmoothb_sound rg bd u8 mt0 l files gids before h F r evs : fhistory rg bd u8 mt0 l files gids before h F -> fsmoothb u8 F r evs = true ->
  fsmoothly rg bd u8 mt0 l files gids before evs /\ ffiles_there rg bd u8 mt0 l files gids r before evs.
Proof.
  intros H S. split.
  - intros a ev b h1 F1 E H1. subst evs. apply fgoes_wellb_sound. exact (proj1 (fsmoothb_split _ _ _ _ _ _ _ S (fhistory_fexec _ _ _ _ _ _ _ _ _ _ H _ _ _ H1))).
  - intros a i b h1 F1 E H1. subst evs. destruct (proj2 (fsmoothb_split _ _ _ _ _ _ _ S (fhistory_fexec _ _ _ _ _ _ _ _ _ _ H _ _ _ H1)) i eq_refl) as [K1 K2].
    split; [exact (file_thereb_sound _ _ _ K1)|exact (ginput_thereb_sound _ _ _ K2)].
Qed.

Definition gens_usableb (F : full) : bool :=
  forallb (fun x => forallb ascii_only (flat_map id_texts (go_ids (snd x))) && handlerless (snd x)) (f_objs F).
Lemma gens_usableb_sound u8 F : gens_usableb F = true -> gens_usable u8 F.
Proof.
  unfold gens_usableb. intros H i g o _ Ho. rewrite forallb_forall in H. specialize (H _ Ho). cbn [snd] in H. apply andb_true_iff in H as [H1 H2].
  split; [exact (gstorableb _ H1)|]. unfold handlerless in H2. rewrite forallb_forall in H2. split.
  - intros id gi hh Hi E. specialize (H2 _ Hi). cbn [snd] in H2. rewrite E in H2. discriminate.
  - intros t id ii gi hh _ _ Hi E. specialize (H2 _ Hi). cbn [snd] in H2. rewrite E in H2. discriminate.
Qed.
Lemma all_usableF rg bd u8 mt0 evs h F : fhistory rg bd u8 mt0 projF filesF gidsF evs h F -> builtb (p_built (f_proj F)) = true ->
  forall id e st c, In (id, (e, st)) (p_targets (f_proj F)) -> In (id, c) (p_built (f_proj F)) -> usable e c.
Proof.
  intros H B id e st c Hi Hb. destruct (projection _ _ _ _ _ _ _ _ _ _ H) as (pevs & Hp). rewrite (builtb_sound _ B) in Hb.
  apply (in_map (fun x => (fst x, fst (snd x)))) in Hi. rewrite (same_envs _ _ _ _ _ _ Hp) in Hi. cbn [fst snd map projF] in Hi.
  destruct Hb as [Hb|[Hb|[]]]; injection Hb as <- <-; destruct Hi as [Hi|[Hi|[]]]; try discriminate; injection Hi as <-.
  - exact usable_lib.
  - exact usable_app.
Qed.
Definition fundisturbedb (ev : fevent) : bool :=
  match ev with FP (PBegin _ | PStep _ _ _ | PWrite _ _ _ | PFail _ | PEnd _ _) | FStep _ _ => true | _ => false end.
Lemma fundisturbedb_sound evs : forallb fundisturbedb evs = true -> Forall fundisturbed evs.
Proof.
  intros H. apply Forall_forall. intros ev Hev. rewrite forallb_forall in H. specialize (H _ Hev).
  destruct ev as [pe| | |]; try discriminate; [|exact Logic.I]. destruct pe; try discriminate; exact Logic.I.
Qed.
