(** Proofs about build scripts. *)
From Verif Require Import Prelude Proof_Prelude Model_Path Spec_Path Proof_Path Model_Json Model_Schema Model_Command Model_ToolchainConfig Model_Target Spec_Target
  Model_Gen Spec_Gen Model_Sync Spec_Sync Proof_Sync Model_Api Spec_Api Proof_Api Model_Reg Spec_Reg Model_Project Spec_Project Proof_Project
  Model_Full Spec_Full Proof_Full2 Proof_TargetBase Proof_Bootstrap Proof_Bootstrap2 Model_Script Spec_Script.

(** ** The files of an object *)

Lemma assoc_put i u l j : assoc j (put_user i u l) =
  match assoc j l with Some n => Some (if String.eqb j i then ND (nd_tc n) (nd_root n) u else n) | None => None end.
Proof.
  induction l as [|[k n] l IH]; [reflexivity|]. cbn [put_user assoc].
  destruct (String.eqb k i) eqn:E; cbn [assoc].
  - destruct (String.eqb j k) eqn:J; [|exact IH]. apply String.eqb_eq in J. subst j. rewrite E. reflexivity.
  - destruct (String.eqb j k) eqn:J; [|exact IH]. apply String.eqb_eq in J. subst j. rewrite E. reflexivity.
Qed.

Section Run.
  Variables (objects : list (string * node)) (s : list stmt).
  Hypothesis New : new_objects objects.

  (** Every file entry of an object is one it was told. *)
  Definition from_told (i : string) (u : tschema) : Prop :=
    forall x e, file_option x = true -> In e (entries x u) -> exists p, e = file_entry p /\ told objects s i x (to_path_string p).
  Definition good (st : sstate) : Prop :=
    (forall i n, assoc i (ss_nodes st) = Some n ->
       from_told i (nd_user n) /\ exists n0, In (i, n0) objects /\ nd_tc n = nd_tc n0 /\ nd_root n = nd_root n0) /\
    (forall i u, In (i, u) (ss_built st) -> from_told i u).

  Lemma adds_file a c x e : file_option x = true -> In (x, e) (adds a c) -> exists p, e = file_entry p.
  Proof.
    intros X H. destruct c; cbn [adds] in H; try (destruct k; cbn [flag_option In] in H);
      try (destruct H as [H|[]]; injection H as <- <-; first [discriminate X|eexists; reflexivity]);
      try (apply in_map_iff in H as (y & H & I); injection H as <- <-; apply in_map_iff in I as (q & <- & _); eexists; reflexivity).
    all: destruct H as [H|H]; [injection H as <- <-; discriminate X|]; destruct glob; [|destruct H];
      apply in_map_iff in H as (y & H & I); injection H as <- <-; apply in_map_iff in I as (q & <- & _); eexists; reflexivity.
  Qed.

  Lemma good_start : good (SS objects []).
  Proof.
    split; [|intros i u []]. cbn [ss_nodes]. intros i n A. apply assoc_In in A. split; [|exists n; auto].
    intros x e X H. rewrite (proj2 New i n x A X) in H. destruct H.
  Qed.
  Lemma good_put st i n u : good st -> assoc i (ss_nodes st) = Some n -> from_told i u -> good (SS (put_user i u (ss_nodes st)) (ss_built st)).
  Proof.
    intros [G1 G2] A U. split; [|exact G2]. cbn [ss_nodes]. intros j m. rewrite assoc_put. destruct (assoc j (ss_nodes st)) as [k|] eqn:J; [|discriminate].
    intros [= <-]. destruct (G1 j k J) as [K1 (n0 & K2 & K3 & K4)]. destruct (String.eqb j i) eqn:E.
    - apply String.eqb_eq in E. subst j. cbn [nd_user nd_tc nd_root]. split; [exact U|]. exists n0. auto.
    - split; [exact K1|]. exists n0. auto.
  Qed.
  Lemma good_sync st i j f st' : good st -> sync st i j f = SOk st' ->
    (forall a b, from_told i a -> from_told j b -> from_told i (fst (f a b)) /\ from_told j (snd (f a b))) -> good st'.
  Proof.
    intros G H Q. unfold sync in H. destruct (String.eqb i j) eqn:E; [discriminate|]. apply String.eqb_neq in E.
    destruct (assoc i (ss_nodes st)) as [a|] eqn:A; [|discriminate]. destruct (assoc j (ss_nodes st)) as [b|] eqn:B; [|discriminate].
    injection H as <-. destruct (Q (nd_user a) (nd_user b) (proj1 (proj1 G i a A)) (proj1 (proj1 G j b B))) as [Q1 Q2].
    apply (good_put (SS (put_user i (fst (f (nd_user a) (nd_user b))) (ss_nodes st)) (ss_built st)) j b).
    - exact (good_put st i a _ G A Q1).
    - cbn [ss_nodes]. rewrite assoc_put, B. apply not_eq_sym, String.eqb_neq in E. rewrite E. reflexivity.
    - exact Q2.
  Qed.
  Lemma times_in xs x n : times xs x = S n -> In x xs.
  Proof. intros T. apply (count_occ_In option_eq_dec). fold (times xs x). lia. Qed.
  Lemma copy_told i j m xs a b : (forall x, In x xs -> takes s i j x) -> from_told i a -> from_told j b ->
    from_told i (fst (copy m a b xs)) /\ from_told j (snd (copy m a b xs)).
  Proof.
    intros T A B. split; intros x e X H; destruct (copy_entries m xs x a b) as (E1 & E2 & _).
    - rewrite E1 in H. destruct (times xs x) as [|n] eqn:N; [exact (A x e X H)|]. apply times_in in N.
      assert (K : In e (entries x b)) by (destruct n; [exact H|destruct m; [exact H|destruct H]]).
      destruct (B x e X K) as (p & -> & P). exists p. split; [reflexivity|]. exact (told_taken objects s i j x _ (T x N) P).
    - rewrite E2 in H. apply (B x e X). destruct (times xs x); [exact H|destruct m; [exact H|destruct H]].
  Qed.
  Lemma insert_told i j m xs a b : (forall x, In x xs -> takes s i j x) -> from_told i a -> from_told j b ->
    from_told i (fst (insert m a b xs)) /\ from_told j (snd (insert m a b xs)).
  Proof.
    assert (L : forall x l, file_option x = true -> left_over m x l = l).
    { intros x l X. destruct m; [reflexivity|]. destruct x; try discriminate X; reflexivity. }
    intros T A B. split; intros x e X H; destruct (insert_entries m xs x a b) as (E1 & E2 & _).
    - rewrite E1 in H. apply in_app_or in H as [H|H]; [exact (A x e X H)|]. destruct (times xs x) as [|n] eqn:N; [destruct H|]. apply times_in in N.
      rewrite (L x _ X) in H. assert (K : In e (entries x b)) by (apply in_app_or in H as [H|H]; [exact H|exact (in_over _ _ _ H)]).
      destruct (B x e X K) as (p & -> & P). exists p. split; [reflexivity|]. exact (told_taken objects s i j x _ (T x N) P).
    - rewrite E2 in H. apply (B x e X). destruct (times xs x); [exact H|]. rewrite (L x _ X) in H. exact H.
  Qed.

  Lemma good_step st c st' : In c s -> good st -> script_step st c = SOk st' -> good st'.
  Proof.
    intros C G H. destruct c as [i ls cs|i j m xs|i j m xs|i]; cbn [script_step] in H.
    - destruct (assoc i (ss_nodes st)) as [n|] eqn:A; [|discriminate].
      destruct (api_run (AE (nd_tc n) (nd_root n) ls) (nd_user n) cs) as [u|] eqn:R; [|discriminate]. injection H as <-.
      apply (good_put st i n); [exact G|exact A|]. destruct (proj1 G i n A) as [U (n0 & O & T1 & T2)]. rewrite T1, T2 in R.
      intros x e X E. rewrite (proj2 (run_adds _ _ _ _ R)) in E. apply in_app_or in E as [E|E]; [exact (U x e X E)|].
      apply in_added in E as (c & I & E). destruct (adds_file _ _ _ _ X E) as (p & ->). exists p. split; [reflexivity|].
      apply told_called. exists n0, ls, cs, c, (Some ""). auto.
    - apply (good_sync st i j _ st' G H). intros a b. apply copy_told. intros x X. exists m, xs. auto.
    - apply (good_sync st i j _ st' G H). intros a b. apply insert_told. intros x X. exists m, xs. auto.
    - destruct (assoc i (ss_nodes st)) as [n|] eqn:A; [|discriminate]. injection H as <-. destruct G as [G1 G2]. split; [exact G1|].
      cbn [ss_built]. intros j u I. apply in_app_or in I as [I|[[= <- <-]|[]]]; [exact (G2 j u I)|]. exact (proj1 (G1 i n A)).
  Qed.
  Lemma good_run l st st' : incl l s -> good st -> script_run st l = SOk st' -> good st'.
  Proof.
    revert st. induction l as [|c l IH]; intros st I G H; cbn [script_run] in H; [injection H as <-; exact G|].
    destruct (script_step st c) as [st1| |] eqn:S; try discriminate. apply (IH st1); [|exact (good_step _ _ _ (I c (or_introl eq_refl)) G S)|exact H].
    intros y Y. apply I. right. exact Y.
  Qed.

  Lemma tracked_told i u f : from_told i u -> In f (tracked (cfg_of u)) -> exists x, file_option x = true /\ told objects s i x f.
  Proof.
    intros U H. unfold tracked, sources, headers, pchs, libs, compile_deps, link_deps, user_of, cfg_of in H.
    cbn [ts_sources ts_headers ts_pchs ts_libs ts_compile_deps ts_link_deps c_sources c_headers c_pchs c_libs c_compile_deps c_link_deps] in H.
    rewrite !infos_normal in H.
    assert (K : forall x l, file_option x = true -> entries x u = infos_of l -> In f (map to_path_string (il_paths l)) -> exists x, file_option x = true /\ told objects s i x f).
    { intros x l X E I. exists x. split; [exact X|]. apply in_map_iff in I as (q & <- & I). rewrite <- infos_paths, <- E in I.
      apply in_map_iff in I as (e & <- & I). destruct (U x e X I) as (p & -> & P). cbn [file_entry fst]. rewrite to_path_string_idem. exact P. }
    repeat (apply in_app_or in H as [H|H]); [apply (K SourceFiles (ts_sources u))|apply (K HeaderFiles (ts_headers u))|
      apply (K PchFiles (ts_pchs u))|apply (K LibDeps (ts_libs u))|apply (K CompileDependencies (ts_compile_deps u))|apply (K LinkDependencies (ts_link_deps u))];
      first [exact H|reflexivity].
  Qed.
End Run.

Theorem only_told objects s st i u f : new_objects objects -> script_run (SS objects []) s = SOk st -> In (i, u) (ss_built st) ->
  In f (tracked (cfg_of u)) -> exists x, file_option x = true /\ told objects s i x f.
Proof.
  intros N R I T. pose proof (good_run objects s s _ _ (incl_refl s) (good_start objects s N) R) as [_ G].
  exact (tracked_told objects s i u f (G i u I) T).
Qed.

(** ** Declared dependencies *)

Lemma declared_told objects l files se i x f b : declared objects l files se -> told objects (se_script se) i x f -> file_option x = true ->
  writer l files b f -> In b (rg_built (se_reg se)) -> In i (rg_built (se_reg se)) /\ before (rg_edges (se_reg se)) b i.
Proof.
  intros D T X W B. induction T as [i x f C|i j x f C T IH]; [exact (de_call _ _ _ _ D i x f b C X W B)|].
  destruct (IH X W) as [J1 J2]. destruct (de_sync _ _ _ _ D i j x C X J1) as [I1 I2]. split; [exact I1|].
  clear - J2 I2. induction J2 as [b j J|b m j J J2 IH]; [exact (before_step _ b j i J I2)|exact (before_step _ b m i J (IH I2))].
Qed.

Lemma fstep_outs u8 F ev F' : fstep u8 F ev = Some F' ->
  map (fun x => (fst x, fst (snd x))) (p_targets (f_proj F')) = map (fun x => (fst x, fst (snd x))) (p_targets (f_proj F)) /\
  p_gens (f_proj F') = p_gens (f_proj F).
Proof.
  unfold fstep. destruct (fallowed F ev); [|discriminate]. destruct (pexec (f_proj F) (pdelivered u8 F ev)) as [p|] eqn:E; [|discriminate].
  destruct (gdeliver u8 F ev (f_gens F)); [|discriminate]. intros [= <-]. cbn [f_proj]. exact (pexec_outs _ _ _ E).
Qed.
Lemma shistory_outs rg bd u8 mt0 l files gids objects sessions evs h F : shistory rg bd u8 mt0 l files gids objects sessions evs h F ->
  map (fun x => (fst x, fst (snd x))) (p_targets (f_proj F)) = map (fun x => (fst x, fst (snd x))) l /\ p_gens (f_proj F) = files.
Proof.
  induction 1 as [|evs h F ev F' H [I1 I2] A S].
  - unfold finit, pinit. cbn [f_proj p_targets p_gens]. rewrite map_map. split; reflexivity.
  - apply fstep_outs in S as [S1 S2]. rewrite S1, S2. auto.
Qed.
Lemma writes_writer p l files b f : map (fun x => (fst x, fst (snd x))) (p_targets p) = map (fun x => (fst x, fst (snd x))) l -> p_gens p = files ->
  writes p b f -> writer l files b f.
Proof.
  intros E G [(e & st & I & ->)|(fs & I & J)].
  - left. apply (in_map (fun x => (fst x, fst (snd x)))) in I. rewrite E in I. cbn [fst snd] in I. apply in_map_iff in I as ([j [e' d]] & I & J).
    cbn [fst snd] in I. injection I as -> ->. exists e, d. auto.
  - right. exists fs. rewrite <- G. auto.
Qed.

Lemma declared_covered objects l files se : declared objects l files se -> covered objects l files se.
Proof.
  intros D. split; [|exact (de_gen _ _ _ _ D)]. intros i x f b T X W B _. exact (proj2 (declared_told _ _ _ _ _ _ _ _ D T X W B)).
Qed.

Theorem script_history rg bd u8 mt0 l files gids objects (sessions : session -> Prop) : new_objects objects ->
  (forall se, sessions se -> covered objects l files se) ->
  forall evs h F, shistory rg bd u8 mt0 l files gids objects sessions evs h F -> fhistory rg bd u8 mt0 l files gids evs h F.
Proof.
  intros N D evs h F H. induction H as [|evs h F ev F' H IH A S]; [apply fhistory_nil|].
  apply fhistory_snoc with (F := F); [exact IH| |exact S]. destruct (shistory_outs _ _ _ _ _ _ _ _ _ _ _ _ H) as [O1 O2].
  destruct ev as [pe| | |]; try exact A. destruct pe; try exact A. destruct A as (se & Se & <- & (st & R & B) & G).
  split.
  - intros b a f c Bb W Ba C T. destruct (B a c C) as (u & U & ->). destruct (only_told _ _ _ _ _ _ N R U T) as (x & X & K).
    exact (co_told _ _ _ _ (D se Se) a x f b K X (writes_writer _ _ _ _ _ O1 O2 W) Bb Ba).
  - intros b a f o k g Bb W Nba Ba Ob K I. exact (co_gen _ _ _ _ (D se Se) a o k g f b (G _ Ob) K I (writes_writer _ _ _ _ _ O1 O2 W) Nba Ba Bb).
Qed.
