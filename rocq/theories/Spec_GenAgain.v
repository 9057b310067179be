(** Histories of processes that run a generator more than once. *)
From Verif Require Import Prelude Model_Json Model_Schema Model_Command Model_Target Spec_Target Model_Gen Spec_Gen Model_Again Model_GenAgain.

Definition btrack (h : ghist) (b : bstate) (ev : bevent) : ghist :=
  match ev with BOnce x => gtrack h (b_st b) x | _ => h end.

(** What Spec_Gen admits for each step. *)
Definition badmissible (rg : regime) (bd : discipline) (h : ghist) (b : bstate) (ev : bevent) : Prop :=
  match ev with BOnce x => gadmissible rg bd h (b_st b) x | _ => True end.

(** A repeated run that has something to write is not killed before it writes the
    state file, and the writing is not refused. *)
Definition bcareful (b : bstate) (ev : bevent) : Prop :=
  match b_phase b, ev with
  | Rep, BOnce GCrash => gdirty (b_st b) = false
  | Rep, BOnce (GFinish w) => gdirty (b_st b) = true -> writes_gstore (b_st b) w = true
  | _, _ => True
  end.

Inductive bsession (rg : regime) (bd : discipline) (u8 : string -> N) (m0 : times) (ok : bstate -> bevent -> Prop)
  : list bevent -> ghist -> bstate -> Prop :=
| bsession_nil : bsession rg bd u8 m0 ok [] (ghist0 m0) (binit m0)
| bsession_snoc evs h b ev b' :
    bsession rg bd u8 m0 ok evs h b -> badmissible rg bd h b ev -> ok b ev -> bstep u8 b ev = Some b' ->
    bsession rg bd u8 m0 ok (evs ++ [ev]) (btrack h b ev) b'.
Definition unrestricted (b : bstate) (ev : bevent) : Prop := True.
