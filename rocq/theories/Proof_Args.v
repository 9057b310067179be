(** Proofs about Args. *)
From Coq Require Import Lia.
From Verif Require Import Prelude Proof_Prelude Model_Path Model_ToolchainConfig Model_Find Model_Storage Model_Api Model_Toolchains Model_Gcc Model_Targets Model_Args
  Model_Command Model_Target Spec_Toolchains Spec_Targets Spec_Args Proof_Targets Proof_Toolchains.

(** ** Names of ids *)
Lemma lower_any : forall n s, (forall c, str_mem c n = true -> lower_char c = c) -> (lower s = n <-> any_case n s).
Proof.
  intros n s N. split.
  - revert n N. induction s as [|d s IH]; intros n N H; cbn [lower] in H; subst n; [constructor|].
    assert (K : any_case (lower s) s).
    { apply IH; [|reflexivity]. intros c Hc. apply N. cbn [str_mem]. rewrite Hc. apply orb_true_r. }
    unfold lower_char at 1. destruct (Nat.leb 65 (nat_of_ascii d) && Nat.leb (nat_of_ascii d) 90) eqn:B; [|constructor; exact K].
    apply andb_true_iff in B as [B1 B2]. apply Nat.leb_le in B1. apply Nat.leb_le in B2.
    apply any_big; [|exact K]. exists (nat_of_ascii d - 65). split; [lia|]. split.
    + f_equal. lia.
    + replace (65 + (nat_of_ascii d - 65)) with (nat_of_ascii d) by lia. symmetry. apply ascii_nat_embedding.
  - intros H. induction H as [|c n s H IH|c d n s (k & K & -> & ->) H IH]; [reflexivity| |].
    + cbn [lower]. f_equal; [apply N; cbn [str_mem]; rewrite Ascii.eqb_refl; reflexivity|].
      apply IH. intros e He. apply N. cbn [str_mem]. rewrite He. apply orb_true_r.
    + cbn [lower]. f_equal.
      * unfold lower_char. rewrite nat_ascii_embedding by lia. replace (Nat.leb 65 (65 + k)) with true by (symmetry; apply Nat.leb_le; lia).
        replace (Nat.leb (65 + k) 90) with true by (symmetry; apply Nat.leb_le; lia). cbn [andb]. f_equal. lia.
      * apply IH. intros e He. apply N. cbn [str_mem]. rewrite He. apply orb_true_r.
Qed.
Lemma small_name id c : str_mem c (id_name id) = true -> lower_char c = c.
Proof.
  intros H. assert (E : lower (id_name id) = id_name id) by (destruct id; reflexivity).
  revert H E. generalize (id_name id). induction s as [|d s IH]; [discriminate|]. cbn [str_mem lower]. intros H [= E1 E2].
  apply orb_true_iff in H as [H|H]; [apply Ascii.eqb_eq in H; subst d; exact E1|exact (IH H E2)].
Qed.
Lemma read_id_iff s id : read_id s = Some id <-> any_case (id_name id) s \/ s = id_number id.
Proof.
  rewrite <- (lower_any (id_name id) s (small_name id)). unfold read_id, transformer. cbn [assoc].
  assert (L : lower (id_number id) = id_number id) by (destruct id; reflexivity).
  split.
  - repeat match goal with |- context [String.eqb ?x ?y] => destruct (String.eqb_spec x y) end; intros [= <-]; auto.
  - intros [H| ->].
    + rewrite H. destruct id; reflexivity.
    + destruct id; reflexivity.
Qed.

(** ** One session *)
Fixpoint after_adds (a : args) (adds : list args_call) : args :=
  match adds with
  | [] => a
  | CTool name c v :: r =>
      let old := ar_tools a c in
      after_adds (set_tool a c (TV (v_build old) (v_test old) (AT (a_id (v_tool v)) (a_name (v_tool v)) (a_exes (v_tool v)) (a_config (v_tool old))))) r
  | CTarget name c v :: r => after_adds (set_target a c v) r
  | _ :: r => after_adds a r
  end.
Definition tool_pairs (cs : list args_call) : list (string * nat) := flat_map (fun c => match c with CTool n x _ => [(n, x)] | _ => [] end) cs.
Definition target_pairs (cs : list args_call) : list (string * nat) := flat_map (fun c => match c with CTarget n x _ => [(n, x)] | _ => [] end) cs.

Lemma set_set a i c v : set_tool (set_internal a i) c v = set_internal (set_tool a c v) i. Proof. reflexivity. Qed.
Lemma set_set' a i c v : set_target (set_internal a i) c v = set_internal (set_target a c v) i. Proof. reflexivity. Qed.
Lemma adds_internal : forall adds a i, after_adds (set_internal a i) adds = set_internal (after_adds a adds) i.
Proof.
  induction adds as [|c adds IH]; intros a i; [reflexivity|]. destruct c; cbn [after_adds]; rewrite ?set_set, ?set_set'; apply IH.
Qed.

Fixpoint fresh_names (seen l : list string) : bool :=
  match l with [] => true | x :: r => negb (mem_str x seen) && fresh_names (seen ++ [x]) r end.
Lemma fresh_NoDup : forall l seen, NoDup seen -> (fresh_names seen l = true <-> NoDup (seen ++ l)).
Proof.
  induction l as [|x l IH]; intros seen N; cbn [fresh_names].
  - rewrite app_nil_r. tauto.
  - replace (seen ++ x :: l) with ((seen ++ [x]) ++ l) by (rewrite <- app_assoc; reflexivity).
    destruct (mem_str x seen) eqn:M; cbn [negb andb].
    + split; [discriminate|]. intros D. exfalso. rewrite <- app_assoc in D. cbn [app] in D. apply NoDup_remove_2 in D. apply D. apply in_or_app. left. apply mem_str_In. exact M.
    + apply IH. apply mem_str_false in M. apply (Permutation.Permutation_NoDup (l := x :: seen)); [apply Permutation.Permutation_cons_append|]. constructor; assumption.
Qed.
Lemma run_adds_eq : forall adds a i rest, Forall is_add adds -> ar_internal a = Some i ->
  args_run a (adds ++ rest) =
  if fresh_names (map fst (i_tools i)) (tool_names adds) && fresh_names (map fst (i_targets i)) (target_names adds)
  then args_run (set_internal (after_adds a adds) (Some (IN (i_tools i ++ tool_pairs adds) (i_targets i ++ target_pairs adds) (i_parsed i)))) rest else None.
Proof.
  induction adds as [|c adds IH]; intros a i rest F E.
  - cbn. rewrite !app_nil_r. destruct i as [t g p], a; cbn in *. subst. reflexivity.
  - inversion F as [|? ? Fc Fr]; subst. destruct c; try contradiction.
    + cbn [app args_run args_step]. rewrite E.
      change (tool_names (CTool name c initial :: adds)) with (name :: tool_names adds).
      change (target_names (CTool name c initial :: adds)) with (target_names adds). cbn [fresh_names].
      destruct (mem_str name (map fst (i_tools i))); [reflexivity|]. cbn [negb andb].
      erewrite IH; [|exact Fr|reflexivity]. cbn [i_tools i_targets i_parsed]. rewrite map_app. cbn [map fst].
      destruct (_ && _); [|reflexivity]. rewrite set_set, adds_internal. cbn [ar_tools set_internal after_adds].
      rewrite <- app_assoc. reflexivity.
    + cbn [app args_run args_step]. rewrite E.
      change (target_names (CTarget name c initial :: adds)) with (name :: target_names adds).
      change (tool_names (CTarget name c initial :: adds)) with (tool_names adds). cbn [fresh_names].
      destruct (mem_str name (map fst (i_targets i))); [cbn [negb andb]; rewrite andb_false_r; reflexivity|]. cbn [negb andb].
      erewrite IH; [|exact Fr|reflexivity]. cbn [i_tools i_targets i_parsed]. rewrite map_app. cbn [map fst].
      destruct (_ && _); [|reflexivity]. rewrite set_set', adds_internal. cbn [after_adds].
      rewrite <- app_assoc. reflexivity.
Qed.
Lemma run_parse a l i : ar_internal a = Some i -> args_run a [CParse l] = parse l i a.
Proof. intros E. cbn [args_run args_step]. rewrite E. destruct (parse l i a); reflexivity. Qed.
Lemma session_eq a adds l : ar_internal a = None -> Forall is_add adds ->
  args_run a (session adds l) =
  if fresh_names [] (tool_names adds) && fresh_names [] (target_names adds)
  then parse l (IN (tool_pairs adds) (target_pairs adds) false) (set_internal (after_adds a adds) (Some (IN (tool_pairs adds) (target_pairs adds) false))) else None.
Proof.
  intros E F. unfold session. cbn [args_run args_step]. rewrite E.
  erewrite run_adds_eq; [|exact F|reflexivity]. cbn [i_tools i_targets i_parsed map app].
  destruct (_ && _); [|reflexivity]. rewrite adds_internal. erewrite run_parse; [|reflexivity]. reflexivity.
Qed.

(** ** Where the values end up *)
Lemma after_other : forall adds a c, ~ In c (tool_cells adds) -> ar_tools (after_adds a adds) c = ar_tools a c.
Proof.
  induction adds as [|x adds IH]; intros a c H; [reflexivity|]. destruct x; cbn [after_adds]; try (apply IH; exact H).
  - change (tool_cells (CTool name c0 initial :: adds)) with (c0 :: tool_cells adds) in H.
    rewrite IH by (intros K; apply H; right; exact K). cbn [set_tool ar_tools].
    destruct (Nat.eqb_spec c c0) as [->|_]; [destruct H; left; reflexivity|reflexivity].
  - rewrite IH by exact H. reflexivity.
Qed.
Lemma after_other' : forall adds a c, ~ In c (target_cells adds) -> ar_targets (after_adds a adds) c = ar_targets a c.
Proof.
  induction adds as [|x adds IH]; intros a c H; [reflexivity|]. destruct x; cbn [after_adds]; try (apply IH; exact H).
  - rewrite IH by exact H. reflexivity.
  - change (target_cells (CTarget name c0 initial :: adds)) with (c0 :: target_cells adds) in H.
    rewrite IH by (intros K; apply H; right; exact K). cbn [set_target ar_targets].
    destruct (Nat.eqb_spec c c0) as [->|_]; [destruct H; left; reflexivity|reflexivity].
Qed.
Lemma in_cells n c v adds : In (CTool n c v) adds -> In c (tool_cells adds).
Proof. intros H. apply in_flat_map. exists (CTool n c v). split; [exact H|left; reflexivity]. Qed.
Lemma in_cells' n c v adds : In (CTarget n c v) adds -> In c (target_cells adds).
Proof. intros H. apply in_flat_map. exists (CTarget n c v). split; [exact H|left; reflexivity]. Qed.
Lemma in_pairs n c v adds : In (CTool n c v) adds -> In (n, c) (tool_pairs adds).
Proof. intros H. apply in_flat_map. exists (CTool n c v). split; [exact H|left; reflexivity]. Qed.
Lemma in_pairs' n c v adds : In (CTarget n c v) adds -> In (n, c) (target_pairs adds).
Proof. intros H. apply in_flat_map. exists (CTarget n c v). split; [exact H|left; reflexivity]. Qed.
Lemma pairs_cells adds : map snd (tool_pairs adds) = tool_cells adds.
Proof. induction adds as [|[] adds IH]; [reflexivity|..]; try exact IH; exact (f_equal (cons _) IH). Qed.
Lemma pairs_cells' adds : map snd (target_pairs adds) = target_cells adds.
Proof. induction adds as [|[] adds IH]; [reflexivity|..]; try exact IH; exact (f_equal (cons _) IH). Qed.
Lemma pairs_names adds : map fst (tool_pairs adds) = tool_names adds.
Proof. induction adds as [|[] adds IH]; [reflexivity|..]; try exact IH; exact (f_equal (cons _) IH). Qed.

(** The variable once AddToolchain has set it. *)
Definition initial_in (old v : tool_var) : tool_var :=
  TV (v_build old) (v_test old) (AT (a_id (v_tool v)) (a_name (v_tool v)) (a_exes (v_tool v)) (a_config (v_tool old))).
Lemma after_in : forall adds a n c v, NoDup (tool_cells adds) -> In (CTool n c v) adds ->
  ar_tools (after_adds a adds) c = initial_in (ar_tools a c) v.
Proof.
  induction adds as [|x adds IH]; intros a n c v N H; [destruct H|]. destruct H as [->|H].
  - change (tool_cells (CTool n c v :: adds)) with (c :: tool_cells adds) in N. inversion N; subst.
    cbn [after_adds]. rewrite after_other by assumption. cbn [set_tool ar_tools]. rewrite Nat.eqb_refl. reflexivity.
  - destruct x; cbn [after_adds]; try (apply (IH _ _ _ _ N H)).
    + change (tool_cells (CTool name c0 initial :: adds)) with (c0 :: tool_cells adds) in N. inversion N as [|? ? N1 N2]; subst.
      rewrite (IH _ _ _ _ N2 H). cbn [set_tool ar_tools]. destruct (Nat.eqb_spec c c0) as [->|_]; [|reflexivity].
      destruct N1. exact (in_cells _ _ _ _ H).
    + rewrite (IH _ _ _ _ N H). reflexivity.
Qed.
Lemma after_in' : forall adds a n c v, NoDup (target_cells adds) -> In (CTarget n c v) adds ->
  ar_targets (after_adds a adds) c = v.
Proof.
  induction adds as [|x adds IH]; intros a n c v N H; [destruct H|]. destruct H as [->|H].
  - change (target_cells (CTarget n c v :: adds)) with (c :: target_cells adds) in N. inversion N; subst.
    cbn [after_adds]. rewrite after_other' by assumption. cbn [set_target ar_targets]. rewrite Nat.eqb_refl. reflexivity.
  - destruct x; cbn [after_adds]; try (apply (IH _ _ _ _ N H)).
    change (target_cells (CTarget name c0 initial :: adds)) with (c0 :: target_cells adds) in N. inversion N as [|? ? N1 N2]; subst.
    exact (IH _ _ _ _ N2 H).
Qed.

Lemma parse_tools_other : forall l ts a a' c, parse_tools l ts a = Some a' -> ~ In c (map snd ts) -> ar_tools a' c = ar_tools a c.
Proof.
  induction ts as [|[n k] ts IH]; intros a a' c H N; cbn [parse_tools] in H; [injection H as <-; reflexivity|].
  destruct (parse_tool _ _) as [v|]; [|discriminate]. rewrite (IH _ _ _ H) by (intros K; apply N; right; exact K).
  cbn [set_tool ar_tools]. destruct (Nat.eqb_spec c k) as [->|_]; [destruct N; left; reflexivity|reflexivity].
Qed.
Lemma parse_tools_in : forall l ts a a' n c, parse_tools l ts a = Some a' -> NoDup (map snd ts) -> In (n, c) ts ->
  parse_tool (ln_tools l n) (ar_tools a c) = Some (ar_tools a' c).
Proof.
  induction ts as [|[m k] ts IH]; intros a a' n c H N I0; [destruct I0|]. cbn [parse_tools] in H.
  cbn [map snd] in N. inversion N as [|? ? N1 N2]; subst.
  destruct (parse_tool (ln_tools l m) (ar_tools a k)) as [v|] eqn:P; [|discriminate].
  destruct I0 as [[= -> ->]|I0].
  - rewrite P, (parse_tools_other _ _ _ _ _ H N1). cbn [set_tool ar_tools]. rewrite Nat.eqb_refl. reflexivity.
  - rewrite <- (IH _ _ _ _ H N2 I0). cbn [set_tool ar_tools]. destruct (Nat.eqb_spec c k) as [->|_]; [|reflexivity].
    destruct N1. apply in_map_iff. exists (n, k). split; [reflexivity|exact I0].
Qed.
Lemma parse_targets_tools : forall l ts a, ar_tools (parse_targets l ts a) = ar_tools a.
Proof. induction ts as [|[n k] ts IH]; intros a; [reflexivity|]. cbn [parse_targets]. rewrite IH. reflexivity. Qed.
Lemma parse_tools_targets : forall l ts a a', parse_tools l ts a = Some a' -> ar_targets a' = ar_targets a.
Proof.
  induction ts as [|[n k] ts IH]; intros a a' H; cbn [parse_tools] in H; [injection H as <-; reflexivity|].
  destruct (parse_tool _ _); [|discriminate]. rewrite (IH _ _ H). reflexivity.
Qed.
Lemma parse_targets_other : forall l ts a c, ~ In c (map snd ts) -> ar_targets (parse_targets l ts a) c = ar_targets a c.
Proof.
  induction ts as [|[n k] ts IH]; intros a c N; [reflexivity|]. cbn [parse_targets].
  rewrite IH by (intros K; apply N; right; exact K). cbn [set_target ar_targets].
  destruct (Nat.eqb_spec c k) as [->|_]; [destruct N; left; reflexivity|reflexivity].
Qed.
Lemma parse_targets_in : forall l ts a n c, NoDup (map snd ts) -> In (n, c) ts ->
  ar_targets (parse_targets l ts a) c =
  GV (pick (gl_compile (ln_targets l n)) (v_compile (ar_targets a c))) (pick (gl_link (ln_targets l n)) (v_link (ar_targets a c))).
Proof.
  induction ts as [|[m k] ts IH]; intros a n c N I0; [destruct I0|]. cbn [parse_targets].
  cbn [map snd] in N. inversion N as [|? ? N1 N2]; subst. destruct I0 as [[= -> ->]|I0].
  - rewrite parse_targets_other by exact N1. cbn [set_target ar_targets]. rewrite Nat.eqb_refl. reflexivity.
  - rewrite (IH _ _ _ N2 I0). cbn [set_target ar_targets]. destruct (Nat.eqb_spec c k) as [->|_]; [|reflexivity].
    destruct N1. apply in_map_iff. exists (n, k). split; [reflexivity|exact I0].
Qed.
Lemma parse_tools_ok : forall l ts a,
  (parse_tools l ts a <> None <-> forall n s, In n (map fst ts) -> tl_id (ln_tools l n) = Some s -> read_id s <> None).
Proof.
  induction ts as [|[m k] ts IH]; intros a; cbn [parse_tools map fst].
  - split; [intros _ n s []|discriminate].
  - unfold parse_tool. destruct (tl_id (ln_tools l m)) as [s0|] eqn:T.
    + destruct (read_id s0) as [id|] eqn:R.
      * rewrite IH. split; intros H n s Hn E.
        -- destruct Hn as [<-|Hn]; [rewrite T in E; injection E as <-; rewrite R; discriminate|exact (H n s Hn E)].
        -- exact (H n s (or_intror Hn) E).
      * split; [intros H; destruct (H eq_refl)|]. intros H. destruct (H m s0 (or_introl eq_refl) T R).
    + rewrite IH. split; intros H n s Hn E.
      * destruct Hn as [<-|Hn]; [rewrite T in E; discriminate|exact (H n s Hn E)].
      * exact (H n s (or_intror Hn) E).
Qed.

(** What a session leaves. *)
Lemma session_inv a adds l a' : ar_internal a = None -> Forall is_add adds -> args_run a (session adds l) = Some a' ->
  exists a1, parse_tools l (tool_pairs adds) (set_internal (after_adds a adds) (Some (IN (tool_pairs adds) (target_pairs adds) false))) = Some a1 /\
  ar_tools a' = ar_tools a1 /\ ar_targets a' = ar_targets (parse_targets l (target_pairs adds) a1) /\
  ar_internal a' = Some (IN (tool_pairs adds) (target_pairs adds) true) /\
  ln_root l = Some (ar_root a') /\ ln_build l = Some (ar_build a') /\ ar_clean a' = pick (ln_clean l) (ar_clean a) /\
  (match ln_level l with None => Some (ar_level a) | Some s => read_level s end) = Some (ar_level a').
Proof.
  intros E F H. rewrite (session_eq _ _ _ E F) in H. destruct (_ && _); [|discriminate]. unfold parse in H.
  destruct (ln_refused l); [discriminate|]. destruct (ln_root l) as [r|]; [|discriminate]. destruct (ln_build l) as [b|]; [|discriminate].
  assert (L0 : forall xs y, ar_level (after_adds y xs) = ar_level y).
  { induction xs as [|[] xs IH]; intros y; cbn [after_adds]; rewrite ?IH; reflexivity. }
  assert (L1 : forall xs y, ar_clean (after_adds y xs) = ar_clean y).
  { induction xs as [|[] xs IH]; intros y; cbn [after_adds]; rewrite ?IH; reflexivity. }
  cbn [set_internal ar_level ar_clean] in H. rewrite L0, L1 in H.
  destruct (match ln_level l with None => Some (ar_level a) | Some s => read_level s end) as [lv|]; [|discriminate].
  cbn [i_tools i_targets] in H. match type of H with (match ?x with _ => _ end) = _ => destruct x as [a1|] eqn:P end; [|discriminate].
  exists a1. split; [reflexivity|]. injection H as <-. cbn [ar_tools ar_targets ar_internal ar_root ar_build ar_clean ar_level].
  rewrite parse_targets_tools. repeat split; reflexivity.
Qed.
Lemma session_tool a adds l a' n c v : ar_internal a = None -> Forall is_add adds -> NoDup (tool_cells adds) ->
  args_run a (session adds l) = Some a' -> In (CTool n c v) adds ->
  parse_tool (ln_tools l n) (initial_in (ar_tools a c) v) = Some (ar_tools a' c).
Proof.
  intros E F N H I0. destruct (session_inv _ _ _ _ E F H) as (a1 & P & T & _). rewrite T.
  assert (N' : NoDup (map snd (tool_pairs adds))) by (rewrite pairs_cells; exact N).
  pose proof (parse_tools_in _ _ _ _ n c P N' (in_pairs _ _ _ _ I0)) as Q. cbn [set_internal ar_tools] in Q.
  rewrite (after_in _ a _ _ _ N I0) in Q. exact Q.
Qed.
Lemma session_target a adds l a' n c v : ar_internal a = None -> Forall is_add adds -> NoDup (target_cells adds) ->
  args_run a (session adds l) = Some a' -> In (CTarget n c v) adds ->
  ar_targets a' c = GV (pick (gl_compile (ln_targets l n)) (v_compile v)) (pick (gl_link (ln_targets l n)) (v_link v)).
Proof.
  intros E F N H I0. destruct (session_inv _ _ _ _ E F H) as (a1 & P & _ & T & _). rewrite T.
  assert (N' : NoDup (map snd (target_pairs adds))) by (rewrite pairs_cells'; exact N).
  rewrite (parse_targets_in _ _ _ n c N' (in_pairs' _ _ _ _ I0)), (parse_tools_targets _ _ _ _ P). cbn [set_internal ar_targets].
  rewrite (after_in' _ a _ _ _ N I0). reflexivity.
Qed.
Lemma session_other a adds l a' : ar_internal a = None -> Forall is_add adds -> args_run a (session adds l) = Some a' ->
  (forall c, ~ In c (tool_cells adds) -> ar_tools a' c = ar_tools a c) /\
  (forall c, ~ In c (target_cells adds) -> ar_targets a' c = ar_targets a c).
Proof.
  intros E F H. destruct (session_inv _ _ _ _ E F H) as (a1 & P & T & G & _). split; intros c N.
  - rewrite T, (parse_tools_other _ _ _ _ _ P) by (rewrite pairs_cells; exact N). cbn [set_internal ar_tools]. apply after_other. exact N.
  - rewrite G, parse_targets_other by (rewrite pairs_cells'; exact N). rewrite (parse_tools_targets _ _ _ _ P). cbn [set_internal ar_targets]. apply after_other'. exact N.
Qed.
Lemma session_accepted a adds l : ar_internal a = None -> Forall is_add adds ->
  (args_run a (session adds l) <> None <-> NoDup (tool_names adds) /\ NoDup (target_names adds) /\ acceptable adds l).
Proof.
  intros E F. rewrite (session_eq _ _ _ E F).
  pose proof (fresh_NoDup (tool_names adds) [] (NoDup_nil _)) as N1. pose proof (fresh_NoDup (target_names adds) [] (NoDup_nil _)) as N2. cbn [app] in N1, N2.
  destruct (fresh_names [] (tool_names adds)); cbn [andb].
  2:{ split; [intros H; destruct (H eq_refl)|]. intros (H & _). apply N1 in H. discriminate. }
  destruct (fresh_names [] (target_names adds)).
  2:{ split; [intros H; destruct (H eq_refl)|]. intros (_ & H & _). apply N2 in H. discriminate. }
  unfold parse, acceptable. cbn [i_tools i_targets].
  destruct (ln_refused l); [split; [intros H; destruct (H eq_refl)|intros (_ & _ & K & _); discriminate]|].
  destruct (ln_root l) as [r|]; [|split; [intros H; destruct (H eq_refl)|intros (_ & _ & _ & K & _); destruct (K eq_refl)]].
  destruct (ln_build l) as [b|]; [|split; [intros H; destruct (H eq_refl)|intros (_ & _ & _ & _ & K & _); destruct (K eq_refl)]].
  pose proof (parse_tools_ok l (tool_pairs adds) (set_internal (after_adds a adds) (Some (IN (tool_pairs adds) (target_pairs adds) false)))) as Q.
  rewrite pairs_names in Q.
  destruct (ln_level l) as [s|].
  - destruct (read_level s) as [lv|] eqn:R.
    + destruct (parse_tools _ _ _).
      * split; [|discriminate]. intros _. split; [apply N1; reflexivity|]. split; [apply N2; reflexivity|].
        split; [reflexivity|]. split; [discriminate|]. split; [discriminate|]. split; [intros ? [= <-]; rewrite R; discriminate|]. apply Q. discriminate.
      * split; [intros H; destruct (H eq_refl)|]. intros (_ & _ & _ & _ & _ & _ & K). exfalso. apply Q in K. exact (K eq_refl).
    + split; [intros H; destruct (H eq_refl)|]. intros (_ & _ & _ & _ & _ & K & _). destruct (K s eq_refl R).
  - destruct (parse_tools _ _ _).
    + split; [|discriminate]. intros _. split; [apply N1; reflexivity|]. split; [apply N2; reflexivity|].
      split; [reflexivity|]. split; [discriminate|]. split; [discriminate|]. split; [discriminate|]. apply Q. discriminate.
    + split; [intros H; destruct (H eq_refl)|]. intros (_ & _ & _ & _ & _ & _ & K). exfalso. apply Q in K. exact (K eq_refl).
Qed.

(** ** The properties *)
Lemma small_level v c : str_mem c (level_name v) = true -> lower_char c = c.
Proof.
  intros H. assert (E : lower (level_name v) = level_name v) by (destruct v; reflexivity).
  revert H E. generalize (level_name v). induction s as [|d s IH]; [discriminate|]. cbn [str_mem lower]. intros H [= E1 E2].
  apply orb_true_iff in H as [H|H]; [apply Ascii.eqb_eq in H; subst d; exact E1|exact (IH H E2)].
Qed.
Lemma read_level_iff s v : read_level s = Some v <-> any_case (level_name v) s \/ s = level_number v.
Proof.
  rewrite <- (lower_any (level_name v) s (small_level v)). unfold read_level, transformer. cbn [assoc].
  split.
  - repeat match goal with |- context [String.eqb ?x ?y] => destruct (String.eqb_spec x y) end; intros [= <-]; auto.
  - intros [H| ->].
    + rewrite H. destruct v; reflexivity.
    + destruct v; reflexivity.
Qed.

Lemma toolchain_from_line a adds l a' n c v : ar_internal a = None -> Forall is_add adds -> NoDup (tool_cells adds) ->
  args_run a (session adds l) = Some a' -> In (CTool n c v) adds ->
  let t := ln_tools l n in let k := v_tool (ar_tools a' c) in
  selects id_name id_number (tl_id t) (a_id (v_tool v)) (a_id k) /\
  a_name k = or_default (tl_name t) (a_name (v_tool v)) /\ a_exes k = tool_exes t (a_exes (v_tool v)).
Proof.
  intros E F N H I0. pose proof (session_tool _ _ _ _ _ _ _ E F N H I0) as P. cbv zeta. unfold parse_tool in P. cbn [initial_in v_tool a_id a_name a_exes v_build v_test] in P.
  unfold selects. destruct (tl_id (ln_tools l n)) as [s|].
  - destruct (read_id s) as [id|] eqn:R; [|discriminate]. apply read_id_iff in R. injection P as <-. cbn [v_tool a_id a_name a_exes].
    split; [exact R|]. split; reflexivity.
  - injection P as <-. cbn [v_tool a_id a_name a_exes]. split; [reflexivity|]. split; reflexivity.
Qed.
Lemma state_from_line a adds l a' n c v : ar_internal a = None -> Forall is_add adds -> NoDup (tool_cells adds) ->
  args_run a (session adds l) = Some a' -> In (CTool n c v) adds ->
  v_build (ar_tools a' c) = or_default (tl_build (ln_tools l n)) (v_build (ar_tools a c)) /\
  v_test (ar_tools a' c) = or_default (tl_test (ln_tools l n)) (v_test (ar_tools a c)) /\
  a_config (v_tool (ar_tools a' c)) = a_config (v_tool (ar_tools a c)).
Proof.
  intros E F N H I0. pose proof (session_tool _ _ _ _ _ _ _ E F N H I0) as P. unfold parse_tool in P. cbn [initial_in v_tool a_id a_name a_exes a_config v_build v_test] in P.
  match type of P with (match ?x with _ => _ end) = _ => destruct x end; [|discriminate]. injection P as <-. repeat split; reflexivity.
Qed.
Lemma targets_from_line a adds l a' n c v : ar_internal a = None -> Forall is_add adds -> NoDup (target_cells adds) ->
  args_run a (session adds l) = Some a' -> In (CTarget n c v) adds ->
  v_compile (ar_targets a' c) = or_default (gl_compile (ln_targets l n)) (v_compile v) /\
  v_link (ar_targets a' c) = or_default (gl_link (ln_targets l n)) (v_link v).
Proof. intros E F N H I0. rewrite (session_target _ _ _ _ _ _ _ E F N H I0). split; reflexivity. Qed.

Lemma dirs_from_line a adds l a' : ar_internal a = None -> Forall is_add adds -> args_run a (session adds l) = Some a' ->
  ln_root l = Some (ar_root a') /\ ln_build l = Some (ar_build a') /\ is_parsed a' = true.
Proof.
  intros E F H. destruct (session_inv _ _ _ _ E F H) as (a1 & _ & _ & _ & J & R & B & _). unfold is_parsed. rewrite J.
  split; [exact R|]. split; [exact B|reflexivity].
Qed.
Lemma first_settings adds l a' : Forall is_add adds -> args_run args_start (session adds l) = Some a' ->
  ar_clean a' = or_default (ln_clean l) false /\ selects level_name level_number (ln_level l) Info (ar_level a').
Proof.
  intros F H. destruct (session_inv args_start _ _ _ eq_refl F H) as (a1 & _ & _ & _ & _ & _ & _ & C & L). split; [exact C|].
  unfold selects. destruct (ln_level l) as [s|]; [apply read_level_iff; exact L|injection L as <-; reflexivity].
Qed.

Lemma create_from_args before (v : tool_var) s1 :
  store_run store_empty (before ++ [ONew (a_id (v_tool v)) (a_name (v_tool v)) (Some (a_exes (v_tool v))) (Some (a_config (v_tool v)))]) = Some s1 ->
  exists obj k, s_ref (o_storage s1) (a_name (v_tool v)) (class_name (class_of_id (a_id (v_tool v)))) = Ok obj /\ object s1 obj k /\
    k_id k = a_id (v_tool v) /\ k_name k = a_name (v_tool v) /\ k_exes k = a_exes (v_tool v).
Proof.
  intros H. destruct (created_as_asked _ _ _ _ _ [] _ H eq_refl) as (obj & k & R & O & K1 & K2 & K3 & _).
  exists obj, k. split; [exact R|]. split; [exact O|]. split; [exact K1|]. split; [exact K2|].
  rewrite K3. unfold tools. destruct (a_id (v_tool v)); reflexivity.
Qed.
Lemma end_to_end a adds l a' cwd p0 p n c v before s obj k tname kind rel t :
  ar_internal a = None -> Forall is_add adds -> NoDup (tool_cells adds) -> args_run a (session adds l) = Some a' -> In (CTool n c v) adds ->
  reg_init false cwd a' p0 = Ok p ->
  let tool := v_tool (ar_tools a' c) in
  store_run store_empty (before ++ [ONew (a_id tool) (a_name tool) (Some (a_exes tool)) (Some (a_config tool))]) = Some s ->
  s_ref (o_storage s) (a_name tool) (class_name (class_of_id (a_id tool))) = Ok obj -> object s obj k ->
  created p tname kind k (env_relative p rel) t ->
  te_root (g_env t) = path_div (path_div cwd (or_default (ln_root l) "")) rel /\
  te_build (g_env t) = path_div (path_div (path_div cwd (or_default (ln_build l) "")) (or_default (tl_name (ln_tools l n)) (a_name (v_tool v)))) tname /\
  k_exes k = tool_exes (ln_tools l n) (a_exes (v_tool v)).
Proof.
  intros E F N H I0 R tool S Q O C. destruct (dirs_from_line _ _ _ _ E F H) as (Er & Eb & Ep).
  unfold reg_init in R. rewrite Ep in R. apply Ok_inj in R. subst p.
  destruct (toolchain_from_line _ _ _ _ _ _ _ E F N H I0) as (_ & Tn & Te).
  destruct (create_from_args _ _ _ S) as (obj' & k' & Q' & O' & _ & K2 & K3). fold tool in Q', K2, K3, Tn, Te.
  rewrite Q in Q'. apply Ok_inj in Q'. subst obj'. destruct O as [O1 O2]. destruct O' as [O1' _]. pose proof (O2 _ O1') as ->.
  apply created_fields in C as (B & _ & _ & Ro & _). rewrite B, Ro, Er, Eb, K3, Te. unfold build_dir. rewrite K2, Tn. repeat split; reflexivity.
Qed.

Lemma parsed_run : forall cs a a', args_run a cs = Some a' -> is_parsed a' = fold_left parsed_after cs (is_parsed a).
Proof.
  induction cs as [|c cs IH]; intros a a' H; cbn [args_run fold_left] in *; [injection H as <-; reflexivity|].
  destruct (args_step a c) as [a1|] eqn:S; [|discriminate]. rewrite (IH a1 a' H). f_equal.
  destruct c; cbn [args_step parsed_after] in *.
  - unfold is_parsed. destruct (ar_internal a) eqn:E; injection S as <-; [rewrite E; reflexivity|reflexivity].
  - injection S as <-. reflexivity.
  - unfold is_parsed. destruct (ar_internal a) as [i|]; [|discriminate]. destruct (mem_str _ _); [discriminate|]. injection S as <-. reflexivity.
  - unfold is_parsed. destruct (ar_internal a) as [i|]; [|discriminate]. destruct (mem_str _ _); [discriminate|]. injection S as <-. reflexivity.
  - destruct (ar_internal a) as [i|]; [|discriminate]. unfold parse in S. destruct (ln_refused l); [discriminate|].
    destruct (ln_root l); [|discriminate]. destruct (ln_build l); [|discriminate].
    match type of S with (match ?x with _ => _ end) = _ => destruct x end; [|discriminate].
    match type of S with (match ?x with _ => _ end) = _ => destruct x end; [|discriminate]. injection S as <-. reflexivity.
Qed.
Lemma init_needs_parse cwd p cs a : args_run args_start cs = Some a ->
  (reg_init false cwd a p = Fatal <-> fold_left parsed_after cs false = false) /\ reg_init true cwd a p = Ok p.
Proof.
  intros H. apply parsed_run in H. change (is_parsed args_start) with false in H. unfold reg_init. rewrite <- H.
  split; [|reflexivity]. destruct (is_parsed a); split; congruence.
Qed.
