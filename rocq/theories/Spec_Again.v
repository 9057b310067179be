(** What the theorems about repeated runs in one process consider. *)
From Verif Require Import Prelude Model_Json Model_Schema Model_Command Spec_Command Model_ToolchainConfig Model_Target Spec_Target
  Model_Again.

(** Steps of a run up to its end, and of the environment. *)
Definition of_run (ev : event) : bool :=
  match ev with
  | EvStart _ _ | EvEnd _ | EvCrash | EvCrashEnd _ | EvDropStore => false
  | _ => true
  end.

(** The same files and artifacts; the state files may differ. *)
Definition same_build (d d' : disk) : Prop :=
  d_mt d = d_mt d' /\ d_pch d = d_pch d' /\ d_obj d = d_obj d' /\ d_tgt d = d_tgt d' /\
  d_pch_bad d = d_pch_bad d' /\ d_obj_bad d = d_obj_bad d' /\ d_tgt_bad d = d_tgt_bad d'.

(** What Spec_Target admits, also with processes that call Run again; while a
    process is waiting files are edited and other targets fail, nothing else. *)
Definition calm (rg : regime) (e : tenv) (h : hist) (a : astate) (ev : aevent) : Prop :=
  match ev with
  | AOnce x =>
      admissible rg e h (a_st a) x /\
      match a_phase a, x with
      | Rest _, EvEdit _ _ | Rest _, EvFail => True
      | Rest _, _ => False
      | _, _ => True
      end
  | AAgain | AStop => True
  end.
(** And: once a process has called Run again no further process is started
    (C134_*_refuted show why). *)
Definition aadmissible (rg : regime) (e : tenv) (past : list aevent) (h : hist) (a : astate) (ev : aevent) : Prop :=
  calm rg e h a ev /\
  match ev with AOnce (EvStart _ _) => ~ In AAgain past | _ => True end.

Definition atrack (e : tenv) (h : hist) (a : astate) (ev : aevent) : hist :=
  match ev with
  | AOnce x => track e h (a_st a) x
  | AAgain => HS (h_next h) (h_taint h) (h_lang h) false
  | AStop => h
  end.

Inductive ahistory (rg : regime) (e : tenv) (d0 : disk) : list aevent -> hist -> astate -> Prop :=
| ahistory_nil : ahistory rg e d0 [] (hist0 d0) (ainit d0)
| ahistory_snoc evs h a ev a' :
    ahistory rg e d0 evs h a -> aadmissible rg e evs h a ev -> astep e a ev = Some a' ->
    ahistory rg e d0 (evs ++ [ev]) (atrack e h a ev) a'.

(** The same without the restriction of [aadmissible]. *)
Inductive session (rg : regime) (e : tenv) (d0 : disk) : list aevent -> hist -> astate -> Prop :=
| session_nil : session rg e d0 [] (hist0 d0) (ainit d0)
| session_snoc evs h a ev a' :
    session rg e d0 evs h a -> calm rg e h a ev -> astep e a ev = Some a' ->
    session rg e d0 (evs ++ [ev]) (atrack e h a ev) a'.

(** A process that calls Run again is careful: a repeated run is not killed, and
    it comes to its end only with success and with the state file written. *)
Definition careful (a : astate) (ev : aevent) : Prop :=
  match a_phase a, ev with
  | Rep, AOnce EvCrash | Rep, AOnce (EvCrashEnd _) => False
  | Rep, AOnce (EvEnd w) =>
      w = WOk /\ s_ok (a_st a) = true /\ (s_dirty (a_st a) = true -> writes_store (a_st a) WOk = true)
  | _, _ => True
  end.
Inductive careful_session (rg : regime) (e : tenv) (d0 : disk) : list aevent -> hist -> astate -> Prop :=
| careful_nil : careful_session rg e d0 [] (hist0 d0) (ainit d0)
| careful_snoc evs h a ev a' :
    careful_session rg e d0 evs h a -> calm rg e h a ev -> careful a ev -> astep e a ev = Some a' ->
    careful_session rg e d0 (evs ++ [ev]) (atrack e h a ev) a'.
