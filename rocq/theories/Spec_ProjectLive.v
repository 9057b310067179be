(** What the theorems about whole runs coming to an end talk about. *)
From Verif Require Import Prelude Model_Path Model_Schema Spec_Json Model_Command Model_ToolchainConfig Model_Target Spec_Target
  Model_Reg Spec_Reg Model_Project Spec_Project.

(** The event belongs to the run, and nothing goes wrong in it: commands and
    writes of state files succeed, no generator fails (its task may report failure
    only if something else has failed before it). *)
Definition goes_well (p : project) (ev : pevent) : Prop :=
  match ev with
  | PBegin _ | PWrite _ _ _ => True
  | PStep _ x _ => good x
  | PEnd _ ok => ok = true \/ p_ok p = false
  | _ => False
  end.
(** All the events [evs] (after the events [before]) do. *)
Definition smoothly (rg : regime) (l : list (string * (tenv * disk))) (gens : list (string * list string))
    (before evs : list pevent) : Prop :=
  forall a ev b h p, evs = a ++ ev :: b -> phistory rg l gens (before ++ a) h p -> goes_well p ev.

(** Whenever the task of a target starts, the files the target tracks exist,
    except those the registered targets make. *)
Definition files_there (rg : regime) (l : list (string * (tenv * disk))) (gens : list (string * list string))
    (r : reg) (before evs : list pevent) : Prop :=
  forall a i b h p, evs = a ++ PBegin i :: b -> phistory rg l gens (before ++ a) h p ->
  forall e st c f, In (i, (e, st)) (p_targets p) -> In (i, c) (p_built p) -> In f (tracked c) ->
    d_mt (s_disk st) f <> None \/
    exists j ej sj cj, In (j, (ej, sj)) (p_targets p) /\ In (j, cj) (p_built p) /\ In j (rg_built r) /\ f = out_file ej.

(** The options of the target can be used: no command is empty, the strings are
    UTF-8. *)
Definition usable (e : tenv) (c : cfg) : Prop :=
  commands_nonempty e c /\ Forall valid_utf8 (target_strings (user_of c)).

(** The steps of a run except for what generators do on their own. *)
Definition counted (ev : pevent) : bool :=
  match ev with PWrite _ _ _ | PFail _ => false | _ => true end.
Definition work_of (built : list (string * cfg)) : nat :=
  list_sum (map (fun x => length (sources (snd x)) + 6) built).
