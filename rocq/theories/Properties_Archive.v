(** C114: the contents of static libraries. *)
From Coq Require Import Permutation.
From Verif Require Import Prelude Model_Path Model_Command Spec_Command Model_ToolchainConfig Model_Target Spec_Target Proof_TargetCase
  Model_Archive Spec_Archive Proof_Archive Proof_ArchiveCase.

(** C114: after a successful build a static library consists of the object files of
    the sources the target has, and of nothing else. Here: tracked files do not
    change while the target is built (other histories: the next theorem). Missing
    (refuted below): targets from which a source was removed. *)
Theorem C114_library_exact_partial : forall e d0 evs w lo h st lib,
  templates_ok e -> gcc_static e -> lhistory Quiet e d0 (evs ++ [(EvEnd w, lo)]) h st lib -> s_ok st = true ->
  library_exact e (s_cfg st) (s_disk st) lib.
Proof. intros e d0 evs w lo h st lib T _ H O. exact (library_quiet e d0 evs w lo h st lib T H O). Qed.
Print Assumptions C114_library_exact_partial.

(** The same in histories with crashes at any point and edits during other builds,
    when times only grow. *)
Theorem C114_library_exact_after_crashes_partial : forall e d0 pre c ord lo1 run w lo h st lib,
  templates_ok e -> gcc_static e -> lhistory Forward e d0 (pre ++ (EvStart c ord, lo1) :: run ++ [(EvEnd w, lo)]) h st lib ->
  (forall f t lo', ~ In (EvEdit f t, lo') run) -> s_ok st = true ->
  library_exact e (s_cfg st) (s_disk st) lib.
Proof. intros e d0 pre c ord lo1 run w lo h st lib T _ H N O. exact (library_forward e d0 pre c ord lo1 run w lo h st lib T H N O). Qed.
Print Assumptions C114_library_exact_after_crashes_partial.

(** What any successful link leaves in the library, in whatever state: every object
    file of the target, and old members, of every name as many as were not replaced. *)
Theorem C114_linked_library : forall e st lib lo st' lib',
  gcc_static e -> lstep e st lib (EvLinkExec XOk) lo = Some (st', lib') -> d_tgt_bad (s_disk st') = false ->
  exists m arts rest, lib' = Some m /\ Forall2 (fun s a => d_obj (s_disk st) (obj_of e s) = Some a) (s_ord st) arts /\
    Permutation m (combine (map (member_name e) (s_ord st)) arts ++ rest) /\
    incl rest (match lib with Some l => l | None => [] end) /\
    forall n, occurrences n (map fst rest) =
      occurrences n (map fst (match lib with Some l => l | None => [] end)) - occurrences n (map (member_name e) (s_ord st)).
Proof. intros e st lib lo st' lib' _ S B. exact (linked_contents e st lib lo st' lib' S B). Qed.
Print Assumptions C114_linked_library.

(** The hypotheses hold of a library with two sources of the same file name that gets
    a third source and is then edited. *)
Example C114_case : templates_ok eA /\ gcc_static eA /\
  forall rg, exists h st lib, lhistory rg eA lib_disk (quietly growing ++ [(EvEnd WOk, None)]) h st lib /\
    s_ok st && cfg_eqb (s_cfg st) lib3 && match lib with Some m => Nat.eqb (length m) 3 | None => false end = true.
Proof. exact (conj eA_templates (conj eA_static growing_case)). Qed.

(** A source is removed and the library built again, with success: it still contains
    the object file of that source. *)
Theorem C114_removed_source_refuted : gcc_static eA /\ exists h st lib m, history Quiet eA lib_disk shrinking h st /\
  lexec eA (init lib_disk) None (quietly shrinking) = Some (st, lib) /\ s_ok st = true /\
  sources (s_cfg st) = ["/p/a.cpp"] /\ lib = Some m /\ In "b.cpp.o" (map fst m) /\ ~ library_exact eA (s_cfg st) (s_disk st) lib.
Proof. exact (conj eA_static shrinking_stale). Qed.
Print Assumptions C114_removed_source_refuted.

(** Nothing else changes the library: only a link command that is run, and deleting
    the file, do. *)
Theorem C114_only_links : forall e st lib ev lo st' lib',
  lstep e st lib ev lo = Some (st', lib') -> ev <> EvDelTgt -> (forall r, ev = EvLinkExec r -> r = XNotRun) -> lib' = lib.
Proof. exact only_links. Qed.
Print Assumptions C114_only_links.
