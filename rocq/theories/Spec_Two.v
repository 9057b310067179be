(** What several processes sharing a build directory are allowed to do. *)
From Verif Require Import Prelude Model_Json Model_Schema Model_Command Model_ToolchainConfig Model_Target.

(** Every process builds the configuration [c]; every command it starts succeeds;
    a process may be killed between two steps, and writing the state file may be
    refused.  No file is edited and nothing is deleted. *)
Definition orderly (e : tenv) (c : cfg) (ev : event) : Prop :=
  match ev with
  | EvStart c' ord => c' = c /\ ~ In (FOk "") (all_commands e c ord)
  | EvPchCheck | EvObjCheck | EvLinkCheck | EvCrash => True
  | EvPchExec r => r = XOk
  | EvCompile _ r => r = XOk
  | EvLinkExec r => r = XOk
  | EvEnd w => w = WOk \/ w = WKeep
  | _ => False
  end.
