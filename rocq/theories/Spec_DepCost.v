(** What C124 counts. *)
From Verif Require Import Prelude Model_Reg.

(** [l]: the builders met when going from [x] from dependent to dependent. *)
Inductive chain (g : edges) : string -> list string -> Prop :=
| chain_end x : chain g x []
| chain_next x y l : In (x, y) g -> chain g y l -> chain g x (y :: l).
