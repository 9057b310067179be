(** What the theorems about runs of generators coming to an end talk about. *)
From Verif Require Import Prelude Model_Json Model_Schema Spec_Json Model_Command Model_Target Spec_Target Model_Gen Spec_Gen.

(** Steps of the generate task itself. *)
Definition gown (ev : gevent) : Prop :=
  match ev with GSetup | GEnter _ | GCall _ _ _ | GFinish _ => True | _ => False end.
Definition gownb (ev : gevent) : bool :=
  match ev with GSetup | GEnter _ | GCall _ _ _ | GFinish _ => true | _ => false end.
(** Nothing goes wrong in the step: the callback succeeds, the state file can be
    written, no input of an id of [o] is deleted. *)
Definition ggood (o : gobj) (ev : gevent) : Prop :=
  let keeps f t := t <> None \/ forall id g, In (id, g) (go_ids o) -> ~ In f (inputs_of g) in
  match ev with
  | GSetup | GEnter _ | GFinish WOk | GDropStore => True
  | GCall _ ok w => ok = true /\ forall f t, In (f, t) w -> keeps f t
  | GEdit f t => keeps f t
  | _ => False
  end.

(** All inputs exist. *)
Definition inputs_there (mt : times) (o : gobj) : Prop :=
  forall id g f, In (id, g) (go_ids o) -> In f (inputs_of g) -> mt f <> None.
(** What is to be stored is UTF-8. *)
Definition id_texts (x : string * gid) : list string := fst x :: inputs_of (snd x) ++ outputs_of (snd x).
Definition gstorable (o : gobj) : Prop := Forall valid_utf8 (flat_map id_texts (go_ids o)).
(** Every handler accepts its own data, and accepts and can compare the blob that
    is stored for its id, if any. *)
Definition accepts_own (o : gobj) : Prop :=
  forall id g h, In (id, g) (go_ids o) -> gi_handler g = Some h -> bh_verify h (bh_data h) = true.
Definition accepts_stored (s : option gschema) (o : gobj) : Prop :=
  forall t id i g h, s = Some t -> assoc id (gs_ids t) = Some i -> In (id, g) (go_ids o) -> gi_handler g = Some h ->
    bh_verify h (ii_blob i) = true /\ bh_equal h (ii_blob i) (bh_data h) <> None.
