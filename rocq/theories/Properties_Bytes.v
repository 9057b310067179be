(** C125: contents. *)
From Verif Require Import Prelude Model_Json Model_Schema Model_Command Model_ToolchainConfig Model_Target Spec_Target
  Proof_TargetCase Spec_Bytes Proof_Bytes Proof_BytesCase.

(** C125 is false: a source replaced by one with the same time stamp is not
    compiled, although every run succeeds and the tools read only what the
    target was told about. *)
Theorem C125_same_time_refuted : exists t e d0 b0 evs w n h st b, templates_ok e /\
  bhistory t Quiet e d0 b0 (evs ++ [(EvEnd w, n)]) h st b /\ s_ok st = true /\ fresh_start d0 b0 /\
  reads_declared t e (s_cfg st) /\ commands_nonempty e (s_cfg st) /\ ~ made_from t e (s_cfg st) b.
Proof. exact same_time_stale. Qed.
Print Assumptions C125_same_time_refuted.

(** What holds: if times tell contents apart, what a successful run leaves is
    what the commands make of the files as they are now ... *)
Theorem C125_made_from_partial : forall t V rg e d0 b0 evs w n h st b,
  templates_ok e -> bhistory t rg e d0 b0 (evs ++ [(EvEnd w, n)]) h st b -> s_ok st = true -> h_edited h = false ->
  fresh_start d0 b0 -> times_tell V d0 b0 (evs ++ [(EvEnd w, n)]) ->
  reads_declared t e (s_cfg st) -> commands_nonempty e (s_cfg st) ->
  made_from t e (s_cfg st) b.
Proof. exact bytes_current. Qed.
Print Assumptions C125_made_from_partial.

(** ... and they do when every edit gives a file a later time than it had. *)
Theorem C125_forward_partial : forall t e d0 b0 evs h st b,
  bhistory t Forward e d0 b0 evs h st b -> fresh_start d0 b0 -> exists V, times_tell V d0 b0 evs.
Proof. exact forward_tells. Qed.
Print Assumptions C125_forward_partial.

(** So what is left does not depend on how one got there: a directory with any
    history of edits, failures and crashes ends with the same bytes as any other,
    for instance one built from scratch. *)
Theorem C125_history_independent_partial : forall t e c b1 b2, templates_ok e -> leaves t e c b1 -> leaves t e c b2 ->
  reads_declared t e c -> commands_nonempty e c ->
  same_on (tracked c) (b_files b1) (b_files b2) ->
  (pchs c <> [] -> b_pch b1 = b_pch b2) /\
  same_on (map (obj_of e) (sources c)) (b_obj b1) (b_obj b2) /\
  (order_free t e c -> b_tgt b1 = b_tgt b2).
Proof. exact leaves_agree. Qed.
Print Assumptions C125_history_independent_partial.

Example C125_case : templates_ok e0 /\ fresh_start disk0 bytes0 /\ reads_declared tools0 e0 cP /\ commands_nonempty e0 cP /\ order_free tools0 e0 cP /\
  exists h st b, bhistory tools0 Forward e0 disk0 bytes0 (map fill bevs) h st b /\
  (s_ok st && cfg_eqb (s_cfg st) cP && negb (h_edited h) &&
   match b_tgt b with
   | Some x => String.eqb x ("exe:<v1 of /p/l.a><v1 of /p/dep>" +++
       "<obj:<new a><v1 of /p/h.h>pch:<v1 of /p/h.h><new pch>>" +++ "<obj:<v1 of /p/b.cpp><v1 of /p/h.h>pch:<v1 of /p/h.h><new pch>>")
   | None => false
   end) = true.
Proof.
  split; [exact e0_templates|]. split; [exact bytes0_start|]. split; [exact tools0_reads|]. split; [exact cP_commands|].
  split; [exact tools0_order|exact bevs_case].
Qed.
