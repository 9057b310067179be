(** C32, C33, C47, C50: storage, strings and the task state of lib/env. *)
From Verif Require Import Prelude Model_Storage Spec_Storage Proof_Storage Model_TaskState Proof_TaskState
  Model_Util Spec_Util Proof_Util.

Theorem C32_lookup_exact : forall (l : list sop) (id ty : string),
  (forall obj, s_ref (s_run l) id ty = Ok obj <-> holds l id = Some (obj, ty)) /\
  (s_valid (s_run l) id ty = true <-> exists obj, holds l id = Some (obj, ty)) /\
  (s_contains (s_run l) id = true <-> holds l id <> None).
Proof. exact ref_exact. Qed.
Print Assumptions C32_lookup_exact.

Theorem C32_alive_while_held : forall (l : list sop) (id : string) (obj : nat) (ty : string),
  holds l id = Some (obj, ty) -> ~ In obj (st_destroyed (s_run l)).
Proof. exact not_destroyed_while_held. Qed.
Print Assumptions C32_alive_while_held.

Example C32_case :
  let l := [SAdd "a" "int"; SAdd "b" "string"; SClear; SAdd "b" "int"; SAdd "c" "int"] in
  holds l "b" = Some (2, "int"%string) /\ holds l "a" = None /\
  s_ref (s_run l) "b" "int" = Ok 2 /\ s_ref (s_run l) "b" "string" = Fatal /\ s_ref (s_run l) "a" "int" = Fatal /\
  st_destroyed (s_run l) = [0; 1].
Proof. vm_compute. repeat split. Qed.

(** C33, the part that holds: no object is destroyed twice, and Clear destroys
    every object as long as no identifier is added twice. *)
Theorem C33_destroyed_at_most_once : forall l : list sop,
  NoDup (st_destroyed (s_run l)) /\ (forall x, In x (st_destroyed (s_run l)) -> x < adds l).
Proof. exact destroyed_once. Qed.
Print Assumptions C33_destroyed_at_most_once.

Theorem C33_clear_destroys_all_partial : forall l : list sop, distinct_ids [] l = true ->
  Permutation (st_destroyed (s_run (l ++ [SClear]))) (seq 0 (adds l)).
Proof. exact clear_destroys_all. Qed.
Print Assumptions C33_clear_destroys_all_partial.

(** The object of a second Add with a held identifier is never destroyed. *)
Theorem C33_duplicate_add_leaks_refuted : forall (l : list sop) (id ty : string) (obj0 : nat) (ty0 : string),
  holds l id = Some (obj0, ty0) ->
  forall l2, ~ In (snd (s_add (s_run l) id ty)) (st_destroyed (s_run (l ++ SAdd id ty :: l2))).
Proof. exact duplicate_leaks. Qed.
Print Assumptions C33_duplicate_add_leaks_refuted.

Example C33_case :
  distinct_ids [] [SAdd "a" "int"; SAdd "b" "int"; SClear; SAdd "a" "int"] = true /\
  st_destroyed (s_run [SAdd "a" "int"; SAdd "b" "int"; SClear; SAdd "a" "int"; SClear]) = [0; 1; 2] /\
  holds [SAdd "a" "int"] "a" = Some (0, "int"%string) /\
  st_destroyed (s_run [SAdd "a" "int"; SAdd "a" "int"; SClear]) = [0].
Proof. vm_compute. repeat split. Qed.

Theorem C47_split_inverts_join : forall (d : ascii) (l : list string),
  (forall x, In x l -> str_mem d x = false) -> last l "x" <> "" -> split (join (str1 d) l) d = l.
Proof. exact split_join_exact. Qed.
Print Assumptions C47_split_inverts_join.

Theorem C47_split_join_trailing : forall (d : ascii) (l : list string), l <> [] ->
  (forall x, In x l -> str_mem d x = false) -> split (join (str1 d) l) d = drop_last_empty l.
Proof. exact split_join. Qed.
Print Assumptions C47_split_join_trailing.

Theorem C47_split_no_delimiter : forall (s : string) (d : ascii) (p : string),
  In p (split s d) -> str_mem d p = false.
Proof. exact split_no_delim. Qed.
Print Assumptions C47_split_no_delimiter.

Theorem C47_split_loses_nothing : forall (s : string) (d : ascii),
  s = join (str1 d) (split s d) \/ s = join (str1 d) (split s d) +++ str1 d.
Proof. exact split_loses_nothing. Qed.
Print Assumptions C47_split_loses_nothing.

Theorem C47_trim_exact : forall s : string, exists a b,
  s = a +++ trim s +++ b /\ all_whitespace a /\ all_whitespace b /\
  (forall c, starts_with (trim s) c \/ ends_with (trim s) c -> ~ whitespace c).
Proof. exact trim_exact. Qed.
Print Assumptions C47_trim_exact.

Theorem C47_trim_idempotent : forall s : string, trim (trim s) = trim s.
Proof. exact trim_idempotent. Qed.
Print Assumptions C47_trim_idempotent.

Example C47_case :
  split "/bin::/usr/bin:" ":" = ["/bin"; ""; "/usr/bin"]%string /\ split "" ":" = [] /\
  trim "  a b  " = "a b"%string /\ trim "   " = ""%string.
Proof. vm_compute. repeat split. Qed.

(** C50. [calls] are the arguments each thread passes to set_task_state; the
    library only ever passes FAILURE. *)
Theorem C50_failure_sticky : forall (calls : list (list task_state)) (s1 s2 : list nat) (g1 g2 : gstate),
  only_failure calls -> trun (g_init calls) s1 = Some g1 -> trun g1 s2 = Some g2 ->
  (g_cur g1 = FAILURE \/ exists t, In t (g_threads g1) /\ 0 < th_returned t) -> g_cur g2 = FAILURE.
Proof. exact failure_sticky. Qed.
Print Assumptions C50_failure_sticky.

Theorem C50_success_without_calls : forall (calls : list (list task_state)) (sched : list nat) (g : gstate),
  (forall l, In l calls -> l = []) -> trun (g_init calls) sched = Some g -> g_cur g = SUCCESS.
Proof. exact success_without_calls. Qed.
Print Assumptions C50_success_without_calls.

Theorem C50_no_deadlock : forall (calls : list (list task_state)) (sched : list nat) (g : gstate),
  trun (g_init calls) sched = Some g ->
  (exists t, In t (g_threads g) /\ (th_pc t <> TIdle \/ th_todo t <> [])) -> exists i g', tstep g i = Some g'.
Proof. exact no_deadlock. Qed.
Print Assumptions C50_no_deadlock.

Example C50_case :
  only_failure [[FAILURE]; [FAILURE; FAILURE]] /\
  exists g, trun (g_init [[FAILURE]; [FAILURE; FAILURE]]) [0; 1; 1; 1; 1; 0; 0; 0; 1] = Some g /\ g_cur g = FAILURE.
Proof.
  split.
  - intros l [<-|[<-|[]]] s H; cbn in H; intuition congruence.
  - eexists. split; [vm_compute; reflexivity|reflexivity].
Qed.
