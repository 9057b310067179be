(** C132: files edited while checks and commands read them. *)
From Verif Require Import Prelude Model_Json Model_Schema Model_Command Model_ToolchainConfig Model_Target
  Spec_Command Spec_Target Model_Torn Spec_Torn Proof_TargetCase Proof_TornRun Proof_TornCase.

(** After any runs in which files were edited between two looks of one check or two
    reads of one command, a successful run in which no tracked file is edited leaves
    everything current. *)
Theorem C132_edits_half_way : forall e d0 evs x saw h w,
  templates_ok e -> thistory e d0 (evs ++ [(EvEnd x, saw)]) h w ->
  s_ok (w_st w) = true -> h_edited h = false ->
  all_current e (s_cfg (w_st w)) (s_disk (w_st w)).
Proof. exact (fun e d0 evs x saw h w T => torn_current e T d0 evs x saw h w). Qed.
Print Assumptions C132_edits_half_way.

(** The commands of the first run read an old [h.h] and a new [a.cpp]; the second run
    compiles both sources again. *)
Example C132_torn : exists l h w, thistory e0 disk0 l h w /\ map fst l = map fst torn_first /\
  s_ok (w_st w) && h_edited h && made_from w "/p/a.cpp" "/p/a.cpp" 5 && made_from w "/p/a.cpp" "/p/h.h" 4 &&
  timeb (d_mt (s_disk (w_st w)) "/p/h.h") (Some 7%N) = true.
Proof. apply tfollow_case. vm_compute. reflexivity. Qed.
Example C132_case : templates_ok e0 /\
  exists l h w, thistory e0 disk0 l h w /\ map fst l = map fst (torn_first ++ torn_second) /\
  s_ok (w_st w) && negb (h_edited h) && made_from w "/p/a.cpp" "/p/h.h" 7 && Nat.eqb (length (s_log (w_st w))) 6 = true.
Proof. split; [exact e0_templates|]. apply tfollow_case. vm_compute. reflexivity. Qed.
Example C132_pch_case :
  exists l h w, thistory e0 disk0 l h w /\ map fst l = map fst torn_pch /\
  s_ok (w_st w) && negb (h_edited h) && Nat.eqb (length (s_log (w_st w))) 8 = true.
Proof. apply tfollow_case. vm_compute. reflexivity. Qed.

(** Looks and reads at one instant are the events of C01 - C15. *)
Theorem C132_one_instant : forall e w ev,
  option_map w_st (wstep e w ev (d_mt (s_disk (w_st w)))) = step e (w_st w) ev.
Proof. exact wstep_now. Qed.
Print Assumptions C132_one_instant.
