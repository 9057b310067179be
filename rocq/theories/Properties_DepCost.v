(** C124: how long declaring a dependency takes. *)
From Verif Require Import Prelude Model_Command Model_Reg Spec_Reg Spec_DepCost Proof_Reg Proof_DepCost Properties_Reg.

(** C124 is false: there are programs with 3 n + 2 builders and 4 n accepted
    dependencies, every one of them checked in two rounds, for which the next
    Dep call takes more than 2 ^ n rounds of its search. *)
Theorem C124_linear_refuted : forall n, exists prog r t d, registers 2 prog r /\
  length (rg_built r) = 3 * n + 2 /\ length (rg_edges r) = 4 * n /\
  (forall x, ~ In (x, x) (rg_edges r)) /\ In t (rg_built r) /\ In d (rg_built r) /\
  forall calls k, k <= 2 ^ n -> instance_dep k (RS (Some r) calls) t d = RFuel.
Proof. exact slow. Qed.
Print Assumptions C124_linear_refuted.

(** The rounds an accepted Dep takes are the chains of dependents that start
    at its target, however often they meet the same builder, and one more. *)
Theorem C124_cost_exact : forall n prog r calls t d ws k, registers n prog r -> (forall x, ~ In (x, x) (rg_edges r)) ->
  In t (rg_built r) -> In d (rg_built r) -> ~ In (d, t) (rg_edges r) -> ~ before (rg_edges r) t d ->
  NoDup ws -> (forall l, In l ws <-> chain (rg_edges r) t l) ->
  (instance_dep k (RS (Some r) calls) t d = RFuel <-> k <= length ws).
Proof. exact dep_cost. Qed.
Print Assumptions C124_cost_exact.

(** What holds: while nothing is a dependency of two others, any Dep call is
    decided in as many rounds as there are dependencies, and two more. *)
Theorem C124_linear_partial : forall n prog r calls t d, registers n prog r -> (forall x, ~ In (x, x) (rg_edges r)) ->
  (forall x y z, In (x, y) (rg_edges r) -> In (x, z) (rg_edges r) -> y = z) ->
  instance_dep (length (rg_edges r) + 2) (RS (Some r) calls) t d <> RFuel.
Proof. exact dep_linear. Qed.
Print Assumptions C124_linear_partial.

(** A chain of three, and what the next Dep takes: three rounds and one more. *)
Definition prog_line : list api :=
  [AInit true; ABuild (ViaCall true) "lib" "cb" []; ABuild (ViaCall true) "mid" "cb" []; ABuild (ViaCall true) "app" "cb" [];
   ABuild (ViaCall true) "gen" "cb" []; ADep true true "mid" "lib"; ADep true true "app" "mid"].
Definition reg_line : reg := REG ["lib"; "mid"; "app"; "gen"] [("lib", "mid"); ("mid", "app")] [].
Example C124_case : registers 20 prog_line reg_line /\ (forall x, ~ In (x, x) (rg_edges reg_line)) /\
  (forall x y z, In (x, y) (rg_edges reg_line) -> In (x, z) (rg_edges reg_line) -> y = z) /\
  ~ In ("gen", "lib") (rg_edges reg_line) /\ ~ before (rg_edges reg_line) "lib" "gen" /\
  (forall l, In l [[]; ["mid"]; ["mid"; "app"]] <-> chain (rg_edges reg_line) "lib" l) /\
  instance_dep 3 (RS (Some reg_line) []) "lib" "gen" = RFuel /\
  instance_dep 4 (RS (Some reg_line) []) "lib" "gen" = RDone (RS (Some (REG ["lib"; "mid"; "app"; "gen"] [("lib", "mid"); ("mid", "app"); ("gen", "lib")] [])) []).
Proof.
  split; [eexists; vm_compute; reflexivity|].
  split; [intros x [H|[H|[]]]; discriminate H || (injection H as H1 H2; rewrite <- H1 in H2; discriminate H2)|].
  split; [cbn; intros x y z [H|[H|[]]] [K|[K|[]]]; congruence|].
  split; [cbn; intuition discriminate|].
  split; [apply (search_not_found 4 (rg_edges reg_line) "gen" ["lib"] eq_refl); left; reflexivity|].
  split; [|split; reflexivity].
  intros l. split.
  - intros [<-|[<-|[<-|[]]]]; repeat (constructor; try (cbn; tauto)).
  - intros H. inversion H as [|? y l1 E1 H1]; subst; [left; reflexivity|]. destruct E1 as [E1|[E1|[]]]; [|discriminate E1]. injection E1 as <-.
    inversion H1 as [|? y l2 E2 H2]; subst; [right; left; reflexivity|]. destruct E2 as [E2|[E2|[]]]; [discriminate E2|]. injection E2 as <-.
    inversion H2 as [|? y l3 E3 H3]; subst; [right; right; left; reflexivity|]. destruct E3 as [E3|[E3|[]]]; discriminate E3.
Qed.
