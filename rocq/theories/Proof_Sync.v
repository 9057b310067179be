(** Proofs about Copy and Insert. *)
From Verif Require Import Prelude Model_Path Model_Json Model_Schema Model_Sync Spec_Sync.

Ltac fields := cbn [ts_name ts_type ts_sources ts_headers ts_pchs ts_libs ts_external_libs ts_include_dirs ts_lib_dirs
  ts_preprocessor_flags ts_common_compile_flags ts_pch_compile_flags ts_pch_object_flags ts_asm_compile_flags
  ts_c_compile_flags ts_cpp_compile_flags ts_link_flags ts_compile_deps ts_link_deps ts_pch_compiled ts_target_linked].

Lemma infos_app a b : infos_of (a ++ b) = infos_of a ++ infos_of b.
Proof. apply map_app. Qed.
Lemma strings_app a b : strings_of (a ++ b) = strings_of a ++ strings_of b.
Proof. apply map_app. Qed.
Lemma strings_moved l : strings_of (map (fun _ => EmptyString) l) = map (fun _ => (EmptyString, None)) (strings_of l).
Proof. unfold strings_of. rewrite !map_map. reflexivity. Qed.

Lemma copy_one_spec m t o x : let r := copy_one m (t, o) x in
  entries x (fst r) = entries x o /\
  entries x (snd r) = match m with ByRef => entries x o | ByMove => [] end /\
  (forall y, y <> x -> entries y (fst r) = entries y t /\ entries y (snd r) = entries y o) /\
  rest (fst r) = rest t /\ rest (snd r) = rest o.
Proof.
  destruct x; cbn [copy_one fst snd]; (split; [reflexivity|]); (split; [destruct m; reflexivity|]);
    (split; [|split; reflexivity]); intros y N; destruct y; try congruence; split; reflexivity.
Qed.
Lemma insert_one_spec m t o x : let r := insert_one m (t, o) x in
  entries x (fst r) = entries x t ++ entries x o /\
  entries x (snd r) = match m with ByRef => entries x o | ByMove => if holds_strings x then map (fun _ => (EmptyString, None)) (entries x o) else entries x o end /\
  (forall y, y <> x -> entries y (fst r) = entries y t /\ entries y (snd r) = entries y o) /\
  rest (fst r) = rest t /\ rest (snd r) = rest o.
Proof.
  destruct x; cbn [insert_one fst snd]; (split; [first [apply infos_app|apply strings_app]|]);
    (split; [destruct m; cbn [holds_strings entries]; fields; first [reflexivity|apply strings_moved]|]);
    (split; [|split; reflexivity]); intros y N; destruct y; try congruence; split; reflexivity.
Qed.

Lemma same_entries a b : (forall x, entries x a = entries x b) -> rest a = rest b -> a = b.
Proof.
  assert (Ii : forall l k, infos_of l = infos_of k -> l = k).
  { induction l as [|[p h] l IH]; intros [|[q g] k] H; cbn in H; try discriminate; [reflexivity|].
    injection H as -> -> H. f_equal. apply IH. exact H. }
  assert (Is : forall l k, strings_of l = strings_of k -> l = k).
  { induction l as [|p l IH]; intros [|q k] H; cbn in H; try discriminate; [reflexivity|].
    injection H as -> H. f_equal. apply IH. exact H. }
  intros H R. unfold rest in R. injection R as R1 R2 R3 R4.
  pose proof (Ii _ _ (H SourceFiles)). pose proof (Ii _ _ (H HeaderFiles)). pose proof (Ii _ _ (H PchFiles)). pose proof (Ii _ _ (H LibDeps)).
  pose proof (Is _ _ (H IncludeDirs)). pose proof (Is _ _ (H LibDirs)). pose proof (Is _ _ (H ExternalLibDeps)).
  pose proof (Is _ _ (H PreprocessorFlags)). pose proof (Is _ _ (H CommonCompileFlags)). pose proof (Is _ _ (H PchCompileFlags)).
  pose proof (Is _ _ (H PchObjectFlags)). pose proof (Is _ _ (H AsmCompileFlags)). pose proof (Is _ _ (H CCompileFlags)).
  pose proof (Is _ _ (H CppCompileFlags)). pose proof (Is _ _ (H LinkFlags)). pose proof (Ii _ _ (H CompileDependencies)). pose proof (Ii _ _ (H LinkDependencies)).
  clear H Ii Is. destruct a, b. cbn in *. subst. reflexivity.
Qed.

(** The general case. [n]: occurrences of the option. *)
Lemma copy_entries m xs x : forall t o,
  entries x (fst (copy m t o xs)) = match times xs x with 0 => entries x t | 1 => entries x o | _ => match m with ByRef => entries x o | ByMove => [] end end /\
  entries x (snd (copy m t o xs)) = match times xs x with 0 => entries x o | _ => match m with ByRef => entries x o | ByMove => [] end end /\
  rest (fst (copy m t o xs)) = rest t /\ rest (snd (copy m t o xs)) = rest o.
Proof.
  induction xs as [|y xs IH]; intros t o; [repeat split|]. unfold copy in *. cbn [fold_left].
  destruct (copy_one m (t, o) y) as [t1 o1] eqn:E. pose proof (copy_one_spec m t o y) as S. rewrite E in S. cbn [fst snd] in S. destruct S as (S1 & S2 & S3 & S4 & S5).
  destruct (IH t1 o1) as (I1 & I2 & I3 & I4). rewrite I1, I2, I3, I4, S4, S5. unfold times. cbn [count_occ]. fold (times xs x).
  destruct (option_eq_dec y x) as [->|N].
  - destruct (times xs x) as [|[|n]]; rewrite ?S1, ?S2; destruct m; auto.
  - destruct (S3 x (not_eq_sym N)) as [A B]. rewrite A, B. auto.
Qed.
Theorem copy_exact m t o xs : m = ByRef \/ NoDup xs ->
  (forall x, In x xs -> entries x (fst (copy m t o xs)) = entries x o) /\
  (forall x, ~ In x xs -> entries x (fst (copy m t o xs)) = entries x t) /\
  rest (fst (copy m t o xs)) = rest t /\ (m = ByRef -> snd (copy m t o xs) = o).
Proof.
  intros C. repeat split.
  - intros x I. destruct (copy_entries m xs x t o) as [-> _]. apply (count_occ_In option_eq_dec) in I. fold (times xs x) in I.
    destruct (times xs x) as [|[|n]] eqn:T; [lia|reflexivity|]. destruct C as [->|C]; [reflexivity|].
    apply (proj1 (NoDup_count_occ option_eq_dec xs)) with (x := x) in C. fold (times xs x) in C. lia.
  - intros x I. destruct (copy_entries m xs x t o) as [-> _]. apply (count_occ_not_In option_eq_dec) in I. fold (times xs x) in I. rewrite I. reflexivity.
  - apply (copy_entries m xs SourceFiles t o).
  - intros ->. apply same_entries; [|apply (copy_entries ByRef xs SourceFiles t o)]. intros x.
    destruct (copy_entries ByRef xs x t o) as (_ & -> & _). destruct (times xs x); reflexivity.
Qed.
Theorem copy_move_repeated t o xs x : 2 <= times xs x -> entries x (fst (copy ByMove t o xs)) = [].
Proof. intros H. destruct (copy_entries ByMove xs x t o) as [-> _]. destruct (times xs x) as [|[|n]]; [lia|lia|reflexivity]. Qed.

Definition blanks (l : list (string * option string)) : list (string * option string) := map (fun _ => (EmptyString, None)) l.
Lemma blanks_blanks l : blanks (blanks l) = blanks l.
Proof. unfold blanks. rewrite map_map. reflexivity. Qed.
Definition left_over (m : passing) (x : sync_option) (l : list (string * option string)) : list (string * option string) :=
  match m with ByRef => l | ByMove => if holds_strings x then blanks l else l end.
Lemma left_over_twice m x l : left_over m x (left_over m x l) = left_over m x l.
Proof. destruct m; cbn; [reflexivity|]. destruct (holds_strings x); [apply blanks_blanks|reflexivity]. Qed.

Lemma insert_entries m xs x : forall t o,
  entries x (fst (insert m t o xs)) = entries x t ++ match times xs x with 0 => [] | S n => entries x o ++ over n (left_over m x (entries x o)) end /\
  entries x (snd (insert m t o xs)) = match times xs x with 0 => entries x o | S _ => left_over m x (entries x o) end /\
  rest (fst (insert m t o xs)) = rest t /\ rest (snd (insert m t o xs)) = rest o.
Proof.
  induction xs as [|y xs IH]; intros t o; [cbn; rewrite app_nil_r; repeat split|]. unfold insert in *. cbn [fold_left].
  destruct (insert_one m (t, o) y) as [t1 o1] eqn:E. pose proof (insert_one_spec m t o y) as S. rewrite E in S. cbn [fst snd] in S. destruct S as (S1 & S2 & S3 & S4 & S5).
  destruct (IH t1 o1) as (I1 & I2 & I3 & I4). rewrite I1, I2, I3, I4, S4, S5. unfold times. cbn [count_occ]. fold (times xs x).
  destruct (option_eq_dec y x) as [->|N].
  - fold (blanks (entries x o)) in S2. fold (left_over m x (entries x o)) in S2. rewrite S1, S2, left_over_twice.
    destruct (times xs x) as [|n]; cbn [over]; rewrite <- ?app_assoc; auto.
  - destruct (S3 x (not_eq_sym N)) as [A B]. rewrite A, B. auto.
Qed.
Theorem insert_exact m t o xs : m = ByRef \/ NoDup xs ->
  (forall x, entries x (fst (insert m t o xs)) = entries x t ++ over (times xs x) (entries x o)) /\
  rest (fst (insert m t o xs)) = rest t /\ (m = ByRef -> snd (insert m t o xs) = o).
Proof.
  intros C. repeat split.
  - intros x. destruct (insert_entries m xs x t o) as [-> _]. f_equal. destruct (times xs x) as [|n] eqn:T; [reflexivity|]. cbn [over]. f_equal.
    destruct C as [->|C]; [reflexivity|]. apply (proj1 (NoDup_count_occ option_eq_dec xs)) with (x := x) in C. fold (times xs x) in C.
    assert (n = 0) as -> by lia. reflexivity.
  - apply (insert_entries m xs SourceFiles t o).
  - intros ->. apply same_entries; [|apply (insert_entries ByRef xs SourceFiles t o)]. intros x.
    destruct (insert_entries ByRef xs x t o) as (_ & -> & _). destruct (times xs x); reflexivity.
Qed.
Theorem insert_move_repeated t o xs x : holds_strings x = true -> times xs x = 2 ->
  entries x (fst (insert ByMove t o xs)) = entries x t ++ entries x o ++ map (fun _ => (EmptyString, None)) (entries x o).
Proof.
  intros H T. destruct (insert_entries ByMove xs x t o) as [-> _]. rewrite T. cbn [over left_over]. rewrite H, app_nil_r. reflexivity.
Qed.
