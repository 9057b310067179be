(** Calls after Build(): what they should amount to. *)
From Verif Require Import Prelude Model_Path Model_Json Model_Schema Model_Command Model_ToolchainConfig Model_Target Model_Sync Spec_Sync
  Model_Api Spec_Api Spec_Target Model_Late.

(** A process: [cs0] described the target ([u0]), then Build(), then the calls [cs],
    then the run. *)
Definition late_run (e : tenv) (u0 : tschema) (ord : list string) (ls : listing) (cs : list call) (run : list event) : list levent :=
  LEv (EvStart (cfg_of u0) ord) :: LCalls ls cs :: map LEv run.
(** The events of one process after its start. *)
Definition one_process (run : list event) : Prop := forall c ord, ~ In (EvStart c ord) run.

(** For which artifact a command was executed. *)
Definition what (x : xcmd) : option (option string) :=
  match x with XPch _ => None | XObj s _ => Some (Some s) | XLink _ => Some None end.
(** The same files, the same decisions, the same result, the same state file; the
    artifacts may differ. *)
Record same_course (a b : tstate) : Prop := {
  sc_pc : s_pc a = s_pc b;
  sc_ok : s_ok a = s_ok b;
  sc_user : s_user a = s_user b;
  sc_load : s_load a = s_load b;
  sc_buf : s_buf a = s_buf b;
  sc_dirty : s_dirty a = s_dirty b;
  sc_files : d_mt (s_disk a) = d_mt (s_disk b);
  sc_store : d_store (s_disk a) = d_store (s_disk b);
  sc_log : map what (s_log a) = map what (s_log b) }.

(** The command is one of those the configuration issues. *)
Definition issued (e : tenv) (c : cfg) (ord : list string) (x : xcmd) : Prop :=
  match x with
  | XPch cmd => pch_command e c = FOk cmd
  | XObj s cmd => In s (sources c) /\ compile_command e c s = FOk cmd
  | XLink cmd => link_command e c ord = FOk cmd
  end.
(** Every command of the run can be constructed and is not empty. *)
Definition commands_fine (e : tenv) (c : cfg) (ord : list string) : Prop :=
  forall r, In r (all_commands e c ord) -> exists cmd, r = FOk cmd /\ cmd <> "".

(** The calls name no source, and no PCH file unless there was one already. *)
Definition no_new_outputs (a : apienv) (u0 : tschema) (cs : list call) : Prop :=
  added a SourceFiles cs = [] /\ (added a PchFiles cs = [] \/ ts_pchs u0 <> []).
(** The calls only name files that are looked at: headers, dependencies, PCH files. *)
Definition only_looked_at (a : apienv) (cs : list call) : Prop :=
  forall x, added a x cs <> [] -> In x [HeaderFiles; PchFiles; CompileDependencies; LinkDependencies].
(** The events of tasks, as opposed to edits, kills and the like. *)
Definition of_task (ev : event) : Prop :=
  match ev with
  | EvPchCheck | EvPchExec _ | EvObjCheck | EvCompile _ _ | EvLinkCheck | EvLinkExec _ | EvEnd _ => True
  | _ => False
  end.
