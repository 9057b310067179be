(** Calls after Build() of a generator: what they should amount to. *)
From Verif Require Import Prelude Model_Path Model_Json Model_Schema Model_Command Model_Target Model_Gen Model_FileGen Model_GenLate.

(** A process: the generator [b] as configured before Build(), then Build(), then the
    calls [cs], then the run. *)
Definition late_process (b : gbuilder) (cs : list bcall) (run : list gevent) : list kevent := KBuild b :: KCalls cs :: map KEv run.
(** No call defines a pattern. *)
Definition no_pattern (cs : list bcall) : Prop := forall k p, ~ In (BPattern k p) cs.
Definition derived (k : gkind) : Prop := k <> KCustom.

(** How many AddCommand calls there are. *)
Definition commands_in (cs : list bcall) : nat := length (flat_map (fun c => match c with BCommand _ _ => [tt] | _ => [] end) cs).
