(** C28, C29: Copy and Insert. *)
From Verif Require Import Prelude Model_Path Model_Json Model_Schema Model_Sync Spec_Sync Proof_Sync.

Definition ta : tschema := TS "a" TExecutable [PI "a.c" "1"] [] [] [] ["x"] ["inc"] [] ["-DA"] [] [] [] [] [] ["-O2"] [] [] [] true false.
Definition tb : tschema := TS "b" TStaticLibrary [PI "b.c" "2"; PI "c.c" "3"] [PI "b.h" ""] [] [] [] ["inc2"] ["lib"] ["-DB"; "-DC"] [] [] [] [] [] [] [] [] [PI "l" ""] false true.

(** C28, by const reference or without repeated options: the selected options
    are replaced, nothing else changes. *)
Theorem C28_copy_exact_partial : forall (m : passing) (t o : tschema) (xs : list sync_option), m = ByRef \/ NoDup xs ->
  (forall x, In x xs -> entries x (fst (copy m t o xs)) = entries x o) /\
  (forall x, ~ In x xs -> entries x (fst (copy m t o xs)) = entries x t) /\
  rest (fst (copy m t o xs)) = rest t /\ (m = ByRef -> snd (copy m t o xs) = o).
Proof. exact copy_exact. Qed.
Print Assumptions C28_copy_exact_partial.

(** Missing: an option repeated in a Copy from an rvalue ends up empty. *)
Theorem C28_repeated_move_refuted : forall (t o : tschema) (xs : list sync_option) (x : sync_option),
  2 <= times xs x -> entries x (fst (copy ByMove t o xs)) = [].
Proof. exact copy_move_repeated. Qed.
Print Assumptions C28_repeated_move_refuted.

(** [entries] and [rest] are all there is to a target's options. *)
Theorem C28_entries_determine : forall a b : tschema, (forall x, entries x a = entries x b) -> rest a = rest b -> a = b.
Proof. exact same_entries. Qed.
Print Assumptions C28_entries_determine.

Example C28_case :
  fst (copy ByRef ta tb [SourceFiles; PreprocessorFlags; SourceFiles; LibDirs]) =
    TS "a" TExecutable [PI "b.c" "2"; PI "c.c" "3"] [] [] [] ["x"] ["inc"] ["lib"] ["-DB"; "-DC"] [] [] [] [] [] ["-O2"] [] [] [] true false /\
  NoDup [SourceFiles; LinkDependencies] /\ times [SourceFiles; SourceFiles] SourceFiles = 2 /\
  ts_sources (fst (copy ByMove ta tb [SourceFiles; SourceFiles])) = [].
Proof. repeat split; try (vm_compute; reflexivity). repeat constructor; cbn; intuition discriminate. Qed.

(** C29: the same for Insert. *)
Theorem C29_insert_exact_partial : forall (m : passing) (t o : tschema) (xs : list sync_option), m = ByRef \/ NoDup xs ->
  (forall x, entries x (fst (insert m t o xs)) = entries x t ++ over (times xs x) (entries x o)) /\
  rest (fst (insert m t o xs)) = rest t /\ (m = ByRef -> snd (insert m t o xs) = o).
Proof. exact insert_exact. Qed.
Print Assumptions C29_insert_exact_partial.

(** Missing: flags repeated in an Insert from an rvalue come out empty the
    second time. *)
Theorem C29_repeated_move_refuted : forall (t o : tschema) (xs : list sync_option) (x : sync_option),
  holds_strings x = true -> times xs x = 2 ->
  entries x (fst (insert ByMove t o xs)) = entries x t ++ entries x o ++ map (fun _ => (EmptyString, None)) (entries x o).
Proof. exact insert_move_repeated. Qed.
Print Assumptions C29_repeated_move_refuted.

Example C29_case :
  ts_sources (fst (insert ByRef ta tb [SourceFiles; IncludeDirs; SourceFiles])) = [PI "a.c" "1"; PI "b.c" "2"; PI "c.c" "3"; PI "b.c" "2"; PI "c.c" "3"] /\
  ts_include_dirs (fst (insert ByMove ta tb [IncludeDirs; SourceFiles])) = ["inc"; "inc2"]%string /\
  holds_strings PreprocessorFlags = true /\ times [PreprocessorFlags; LibDeps; PreprocessorFlags] PreprocessorFlags = 2 /\
  ts_preprocessor_flags (fst (insert ByMove ta tb [PreprocessorFlags; LibDeps; PreprocessorFlags])) = ["-DA"; "-DB"; "-DC"; ""; ""]%string.
Proof. repeat split; vm_compute; reflexivity. Qed.
