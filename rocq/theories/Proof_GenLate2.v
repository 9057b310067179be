(** The calls of the three classes. *)
From Verif Require Import Prelude Proof_Prelude Model_Path Model_Json Model_Schema Model_Command Model_Target Spec_Target
  Model_Gen Spec_Gen Model_FileGen Spec_FileGen Proof_Gen Proof_GenMain Proof_FileGen Proof_FileGen2 Model_GenLate Spec_GenLate Proof_GenLate.

Definition as_fcall (c : bcall) : list fcall :=
  match c with
  | BPattern k p => [FPattern k p] | BInput p => [FInput p] | BOutput p => [FOutput p] | BCommand p a => [FCommand p a]
  | _ => []
  end.
Lemma file_calls cs : forall b b1, gb_kind b = KFile -> bdo_all b cs = AOk b1 -> fdo_all (gb_file b) (flat_map as_fcall cs) = AOk (gb_file b1).
Proof.
  induction cs as [|c cs IH]; intros b b1 K H; cbn [bdo_all] in H; [injection H as <-; reflexivity|].
  destruct (bdo b c) as [b'| |] eqn:E; try discriminate H.
  assert (K' : gb_kind b' = KFile) by (rewrite <- K; apply (kind_kept [c]); cbn [bdo_all]; rewrite E; reflexivity).
  specialize (IH b' b1 K' H). unfold bdo, on_file in E. rewrite K in E. cbn [flat_map].
  destruct c; try discriminate E; cbn [as_fcall app fdo_all]; match type of E with context [fdo ?f ?x] => destruct (fdo f x) as [f'| |]; try discriminate E end;
    injection E as <-; exact IH.
Qed.
Theorem file_as_called base cs b o : go_ids base = [] -> bdo_all (builder_new KFile base) cs = AOk b -> bbuild b = AOk o ->
  exists g, go_ids o = [("Generate", g)] /\
    (forall x, In x (gi_in g) <-> exists p, In (BInput p) cs /\ construct (go_args o) p [] = FOk x) /\
    (forall x, In x (gi_out g) <-> exists p, In (BOutput p) cs /\ construct (go_args o) p [] = FOk x).
Proof.
  intros N C B. pose proof (file_calls cs (builder_new KFile base) b eq_refl C) as F. unfold bbuild in B. rewrite (kind_kept cs _ b C) in B.
  destruct (file_inputs base _ (gb_file b) o N F B) as (g & G & I & O). exists g. split; [exact G|]. split; intros x.
  - rewrite I. split; intros (p & P & Q); exists p; (split; [|exact Q]).
    + apply in_flat_map in P as (c & Hc & P). destruct c; cbn [as_fcall In] in P; try contradiction P; destruct P as [P|P]; try contradiction P; try discriminate P. injection P as <-. exact Hc.
    + apply in_flat_map. exists (BInput p). split; [exact P|left; reflexivity].
  - rewrite O. split; intros (p & P & Q); exists p; (split; [|exact Q]).
    + apply in_flat_map in P as (c & Hc & P). destruct c; cbn [as_fcall In] in P; try contradiction P; destruct P as [P|P]; try contradiction P; try discriminate P. injection P as <-. exact Hc.
    + apply in_flat_map. exists (BOutput p). split; [exact P|left; reflexivity].
Qed.
Theorem templates_as_called cs : forall b b1, bdo_all b cs = AOk b1 ->
  gb_templates b1 = gb_templates b ++ flat_map (fun c => match c with BTemplate i o => [(i, o)] | _ => [] end) cs.
Proof.
  induction cs as [|c cs IH]; intros b b1 H; cbn [bdo_all] in H; [injection H as <-; cbn [flat_map]; rewrite app_nil_r; reflexivity|].
  destruct (bdo b c) as [b'| |] eqn:E; try discriminate H. rewrite (IH _ _ H). clear H IH. unfold bdo, on_file in E. cbn [flat_map].
  destruct c, (gb_kind b); try discriminate E;
    try (destruct (fdo (gb_file b) _); try discriminate E; injection E as <-; reflexivity);
    try (destruct (add_id_info _ _ _ _ _); try discriminate E; injection E as <-; reflexivity).
  injection E as <-. cbn [gb_templates]. rewrite <- app_assoc. reflexivity.
Qed.
Theorem ids_as_called cs : forall b b1, gb_kind b = KCustom -> bdo_all b cs = AOk b1 ->
  map fst (go_ids (gb_base b1)) = map fst (go_ids (gb_base b)) ++ flat_map (fun c => match c with BAddId id _ _ _ => [id] | _ => [] end) cs.
Proof.
  induction cs as [|c cs IH]; intros b b1 K H; cbn [bdo_all] in H; [injection H as <-; cbn [flat_map]; rewrite app_nil_r; reflexivity|].
  destruct (bdo b c) as [b'| |] eqn:E; try discriminate H.
  assert (K' : gb_kind b' = KCustom) by (rewrite <- K; apply (kind_kept [c]); cbn [bdo_all]; rewrite E; reflexivity).
  rewrite (IH b' b1 K' H). clear H IH K'. unfold bdo, on_file in E. rewrite K in E. cbn [flat_map]. destruct c; try discriminate E.
  - cbn [fdo] in E. destruct (add_pattern (fg_base (gb_file b)) k pattern) as [o| |] eqn:A; try discriminate E. injection E as <-.
    unfold add_pattern in A. destruct (construct _ _ _); try discriminate A. injection A as <-. reflexivity.
  - destruct (add_id_info (gb_base b) id inputs outputs h) as [x| |] eqn:A; try discriminate E. injection E as <-.
    apply add_id_args in A as [_ (g & G)]. change (gb_base (with_base b x)) with x. rewrite G, map_app, <- app_assoc. reflexivity.
Qed.
Lemma bdo_app a : forall b c b1, bdo_all b (a ++ c) = AOk b1 -> exists b0, bdo_all b a = AOk b0 /\ bdo_all b0 c = AOk b1.
Proof.
  induction a as [|x a IH]; intros b c b1 H; cbn [app bdo_all] in *; [exists b; auto|]. destruct (bdo b x) as [b'| |]; try discriminate H. exact (IH _ _ _ H).
Qed.
Lemma commands_grow cs : forall b b1, bdo_all b cs = AOk b1 ->
  exists more, fg_commands (gb_file b1) = fg_commands (gb_file b) ++ more /\ length more = commands_in cs.
Proof.
  induction cs as [|c cs IH]; intros b b1 H; cbn [bdo_all] in H; [injection H as <-; exists []; rewrite app_nil_r; auto|].
  destruct (bdo b c) as [b'| |] eqn:E; try discriminate H. destruct (IH _ _ H) as (m & M & L). clear H IH. unfold bdo, on_file in E. unfold commands_in in *. cbn [flat_map].
  destruct c, (gb_kind b); try discriminate E; cbn [fdo] in E;
    try (destruct (add_pattern _ _ _); try discriminate E; injection E as <-; exists m; auto; fail);
    try (destruct (add_id_info _ _ _ _ _); try discriminate E; injection E as <-; exists m; auto; fail);
    try (injection E as <-; exists m; auto; fail).
  destruct (construct _ _ _) as [v| |]; try discriminate E. injection E as <-. cbn [gb_file with_file fg_commands] in M. exists (v :: m). rewrite M, <- app_assoc. cbn [app length]. auto.
Qed.
Lemma command_as_called pre p a post b b1 : bdo_all b (pre ++ BCommand p a :: post) = AOk b1 ->
  exists b0 v more, bdo_all b pre = AOk b0 /\ construct (go_args (gb_base b0)) p a = FOk v /\
    fg_commands (gb_file b1) = fg_commands (gb_file b0) ++ v :: more /\ length more = commands_in post.
Proof.
  intros H. apply bdo_app in H as (b0 & P & H). cbn [bdo_all] in H. destruct (bdo b0 (BCommand p a)) as [b'| |] eqn:E; try discriminate H.
  unfold bdo, on_file in E. destruct (gb_kind b0); try discriminate E. cbn [fdo] in E.
  destruct (construct (go_args (fg_base (gb_file b0))) p a) as [v| |] eqn:V; try discriminate E. injection E as <-.
  destruct (commands_grow post _ b1 H) as (m & M & L). cbn [gb_file with_file fg_commands] in M. exists b0, v, m. split; [exact P|]. split; [exact V|]. split; [|exact L].
  rewrite M, <- app_assoc. reflexivity.
Qed.
Lemma ids_grow cs : forall b b1, gb_kind b = KCustom -> bdo_all b cs = AOk b1 -> forall e, In e (go_ids (gb_base b)) -> In e (go_ids (gb_base b1)).
Proof.
  induction cs as [|c cs IH]; intros b b1 K H e I; cbn [bdo_all] in H; [injection H as <-; exact I|].
  destruct (bdo b c) as [b'| |] eqn:E; try discriminate H.
  assert (K' : gb_kind b' = KCustom) by (rewrite <- K; apply (kind_kept [c]); cbn [bdo_all]; rewrite E; reflexivity).
  apply (IH b' b1 K' H). clear H IH K'. unfold bdo, on_file in E. rewrite K in E. destruct c; try discriminate E.
  - cbn [fdo] in E. destruct (add_pattern (fg_base (gb_file b)) k pattern) as [o| |] eqn:A; try discriminate E. injection E as <-.
    unfold add_pattern in A. destruct (construct _ _ _); try discriminate A. injection A as <-. exact I.
  - destruct (add_id_info (gb_base b) id _ _ _) as [x| |] eqn:A; try discriminate E. injection E as <-.
    apply add_id_args in A as [_ (g & G)]. change (gb_base (with_base b x)) with x. rewrite G. apply in_or_app. left. exact I.
Qed.
Lemma id_as_called pre id i u h post b b1 : gb_kind b = KCustom -> bdo_all b (pre ++ BAddId id i u h :: post) = AOk b1 ->
  exists b0 g, bdo_all b pre = AOk b0 /\ In (id, g) (go_ids (gb_base b1)) /\ gi_handler g = h /\
    (forall x, In x (gi_in g) <-> exists p, In p i /\ construct (go_args (gb_base b0)) p [] = FOk x) /\
    (forall x, In x (gi_out g) <-> exists p, In p u /\ construct (go_args (gb_base b0)) p [] = FOk x).
Proof.
  intros K H. apply bdo_app in H as (b0 & P & H). pose proof (kind_kept pre b b0 P) as K0. rewrite K in K0.
  cbn [bdo_all] in H. destruct (bdo b0 (BAddId id i u h)) as [b'| |] eqn:E; try discriminate H.
  assert (K' : gb_kind b' = KCustom) by (rewrite <- K0; apply (kind_kept [BAddId id i u h]); cbn [bdo_all]; rewrite E; reflexivity).
  unfold bdo in E. rewrite K0 in E. unfold add_id_info in E. destruct (assoc id (go_ids (gb_base b0))); try discriminate E.
  destruct (construct_all (go_args (gb_base b0)) i) as [ins| |] eqn:C1; try discriminate E.
  destruct (construct_all (go_args (gb_base b0)) u) as [outs| |] eqn:C2; try discriminate E. injection E as <-.
  exists b0, (GI ins outs h). split; [exact P|]. split.
  - apply (ids_grow post _ b1 K' H). cbn [gb_base with_base gb_file fg_base go_ids]. apply in_or_app. right. left. reflexivity.
  - split; [reflexivity|]. split; [exact (construct_all_In _ _ _ C1)|exact (construct_all_In _ _ _ C2)].
Qed.
Theorem file_calls_before :
  (forall base cs b o, go_ids base = [] -> bdo_all (builder_new KFile base) cs = AOk b -> bbuild b = AOk o ->
     exists g, go_ids o = [("Generate", g)] /\
       (forall x, In x (gi_in g) <-> exists p, In (BInput p) cs /\ construct (go_args o) p [] = FOk x) /\
       (forall x, In x (gi_out g) <-> exists p, In (BOutput p) cs /\ construct (go_args o) p [] = FOk x) /\
       gi_handler g = Some (strings_handler (fg_commands (gb_file b)))) /\
  (forall base pre p a post b, bdo_all (builder_new KFile base) (pre ++ BCommand p a :: post) = AOk b ->
     exists b0 v more, bdo_all (builder_new KFile base) pre = AOk b0 /\ construct (go_args (gb_base b0)) p a = FOk v /\
       fg_commands (gb_file b) = fg_commands (gb_file b0) ++ v :: more /\ length more = commands_in post) /\
  (forall base cs b, bdo_all (builder_new KFile base) cs = AOk b -> length (fg_commands (gb_file b)) = commands_in cs).
Proof.
  split; [|split].
  - intros base cs b o N C B. destruct (file_as_called base cs b o N C B) as (g & G & I & O). exists g. split; [exact G|]. split; [exact I|]. split; [exact O|].
    unfold bbuild in B. rewrite (kind_kept cs _ b C) in B. cbn [builder_new gb_kind] in B. unfold fbuild, add_id_info in B.
    destruct (assoc _ _) in B; try discriminate B. destruct (construct_all _ _) in B; try discriminate B. destruct (construct_all _ _) in B; try discriminate B.
    injection B as <-. cbn [go_ids] in G.
    assert (L : forall (l : list (string * gid)) a c, l ++ [a] = [c] -> a = c).
    { intros l e1 e2 E. destruct l as [|y l]; [injection E as ->; reflexivity|]. destruct l; discriminate E. }
    apply L in G. injection G as <-. reflexivity.
  - intros base pre p a post b H. exact (command_as_called pre p a post _ b H).
  - intros base cs b H. destruct (commands_grow cs _ b H) as (m & M & L). rewrite M. exact L.
Qed.
Theorem template_calls_before :
  forall k base cs b, bdo_all (builder_new k base) cs = AOk b ->
  gb_templates b = flat_map (fun c => match c with BTemplate i o => [(i, o)] | _ => [] end) cs.
Proof. intros k base cs b H. exact (templates_as_called cs _ b H). Qed.
Theorem custom_calls_before :
  (forall base cs b o, go_ids base = [] -> bdo_all (builder_new KCustom base) cs = AOk b -> bbuild b = AOk o ->
     map fst (go_ids o) = flat_map (fun c => match c with BAddId id _ _ _ => [id] | _ => [] end) cs) /\
  (forall base pre id i u h post b o, bdo_all (builder_new KCustom base) (pre ++ BAddId id i u h :: post) = AOk b -> bbuild b = AOk o ->
     exists b0 g, bdo_all (builder_new KCustom base) pre = AOk b0 /\ In (id, g) (go_ids o) /\ gi_handler g = h /\
       (forall x, In x (gi_in g) <-> exists p, In p i /\ construct (go_args (gb_base b0)) p [] = FOk x) /\
       (forall x, In x (gi_out g) <-> exists p, In p u /\ construct (go_args (gb_base b0)) p [] = FOk x)).
Proof.
  split.
  - intros base cs b o N C B. unfold bbuild in B. rewrite (kind_kept cs _ b C) in B. cbn [builder_new gb_kind] in B. injection B as <-.
    rewrite (ids_as_called cs (builder_new KCustom base) b eq_refl C). unfold gb_base. cbn [builder_new gb_file fgen_new fg_base]. rewrite N. reflexivity.
  - intros base pre id i u h post b o C B. unfold bbuild in B. rewrite (kind_kept _ _ b C) in B. cbn [builder_new gb_kind] in B. injection B as <-.
    exact (id_as_called pre id i u h post (builder_new KCustom base) b eq_refl C).
Qed.
