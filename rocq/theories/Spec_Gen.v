(** What the generator theorems talk about: when an id is current, and which
    histories of runs, edits, failures and crashes are considered. *)
From Verif Require Import Prelude Model_Json Model_Schema Model_Command Model_Target Spec_Target Model_Gen.

(** ** Blobs *)

(** For each id either no blob handler is ever used, or one with the given notion
    of equal blobs, which is reflexive and transitive. *)
Definition discipline := string -> option (list N -> list N -> Prop).
Definition lawful (bd : discipline) : Prop :=
  forall id R, bd id = Some R ->
    (forall x, R x x) /\ (forall x y z, R x y -> R y z -> R x z).
Definition follows (bd : discipline) (o : gobj) : Prop :=
  forall id g, In (id, g) (go_ids o) ->
    match gi_handler g, bd id with
    | None, None => True
    | Some h, Some R => forall x y, bh_equal h x y = Some true -> R x y
    | _, _ => False
    end.

(** ** Current ids *)

(** The last callback invoked for the id succeeded; it was given exactly these
    inputs, outputs and an equal blob, and saw the present versions of the inputs. *)
Definition blob_current (bd : discipline) (id : string) (g : gid) (b : list N) : Prop :=
  match gi_handler g, bd id with
  | None, _ => b = []
  | Some h, Some R => R b (bh_data h)
  | Some _, None => False
  end.
Definition id_current (bd : discipline) (mt : times) (d : gdisk) (id : string) (g : gid) : Prop :=
  exists a, gd_made d id = Some a /\
    ga_inputs a = inputs_of g /\ ga_outputs a = outputs_of g /\
    blob_current bd id g (ga_blob a) /\
    (forall f, In f (inputs_of g) -> ga_snap a f = mt f).

(** ** Histories *)

Record ghist := GH {
  gh_next : string -> N;          (* above every time the file has had *)
  gh_taint : option gobj }.       (* callbacks of this program may have been invoked
                                     since the state file was last written *)

(** No id that has already looked at its inputs has [f] among them. *)
Definition unread (st : gstate) (f : string) : Prop :=
  forall id g t, assoc id (go_ids (g_cfg st)) = Some g -> In f (inputs_of g) ->
    assoc id (g_tasks st) = Some t -> t = TWait.
Definition fresh (h : ghist) (f : string) (t : option N) : Prop :=
  forall v, t = Some v -> (gh_next h f <= v)%N.

(** The state file is written (fully or not). *)
Definition writes_gstore (st : gstate) (w : wres) : bool :=
  gdirty st && match w with WKeep => false | _ => true end &&
  match final_text st with Some _ => true | None => false end.

(** [Quiet]: the process is not killed between a callback and the writing of the
    state file, and the writing is not refused; programs are free and files may
    change to any time.  [Forward]: the process may be killed at any moment and
    writing may fail; a program whose callbacks may have been invoked is used again
    until the state file has been written, and files only get later times.
    In both no file changes, also not by a callback, after an id has looked at it
    as an input and before the run is over. *)
Definition gadmissible (rg : regime) (bd : discipline) (h : ghist) (st : gstate) (ev : gevent) : Prop :=
  match ev with
  | GEdit f t => unread st f /\ (rg = Forward -> fresh h f t)
  | GFail => True
  | GCrash => rg = Forward \/ gh_taint h = None
  | GDropStore => g_pc st = GIdle
  | GStart o => follows bd o /\ (forall c, gh_taint h = Some c -> o = c)
  | GSetup | GEnter _ | GCrashFinish _ => True
  | GCall id ok w => forall f t, In (f, t) w -> unread st f /\ (rg = Forward -> fresh h f t)
  | GFinish w => rg = Forward \/ gdirty st = false \/ writes_gstore st w = true
  end.

Definition next_after (n : string -> N) (x : string * option N) : string -> N :=
  match snd x with
  | Some v => upd n (fst x) (N.max (n (fst x)) (v + 1))
  | None => n
  end.
Definition gtrack (h : ghist) (st : gstate) (ev : gevent) : ghist :=
  match ev with
  | GEdit f t => GH (next_after (gh_next h) (f, t)) (gh_taint h)
  | GCall id ok w => GH (fold_left next_after w (gh_next h)) (Some (g_cfg st))
  | GDropStore | GCrashFinish _ => GH (gh_next h) None
  | GFinish w => GH (gh_next h) (if writes_gstore st w then None else gh_taint h)
  | _ => h
  end.
Definition ghist0 (m : times) : ghist :=
  GH (fun f => match m f with Some t => (t + 1)%N | None => 0%N end) None.

Inductive ghistory (rg : regime) (bd : discipline) (u8 : string -> N) (m0 : times)
  : list gevent -> ghist -> gstate -> Prop :=
| ghistory_nil : ghistory rg bd u8 m0 [] (ghist0 m0) (ginit m0)
| ghistory_snoc evs h st ev st' :
    ghistory rg bd u8 m0 evs h st -> gadmissible rg bd h st ev -> gstep u8 st ev = Some st' ->
    ghistory rg bd u8 m0 (evs ++ [ev]) (gtrack h st ev) st'.

(** ** Runs *)

(** Everything may happen except: an input changes, the state file is deleted,
    another program is used. Outputs may be changed or deleted. *)
Definition gundisturbed (o : gobj) (ev : gevent) : Prop :=
  match ev with
  | GEdit f _ => forall id g, In (id, g) (go_ids o) -> ~ In f (inputs_of g)
  | GStart o' => o' = o
  | GDropStore => False
  | _ => True
  end.

(** A run in which every id is found unchanged, in the given order. *)
Definition gidle_run (o : gobj) (ids : list string) : list gevent :=
  GStart o :: GSetup :: map GEnter ids ++ [GFinish WOk].

(** Handlers accept what they serialize and find it equal to itself. *)
Definition sane_handler (h : handler) : Prop :=
  bh_verify h (bh_data h) = true /\ bh_equal h (bh_data h) (bh_data h) = Some true.
Definition sane_handlers (o : gobj) : Prop :=
  forall id g h, In (id, g) (go_ids o) -> gi_handler g = Some h -> sane_handler h.

(** The stored entry [i] is what [g] asks for with the files as they are. *)
Definition id_unchanged (mt : times) (i : idinfo) (g : gid) : Prop :=
  recorded_now mt (inputs_of g) (ii_inputs i) /\ ii_outputs i = outputs_of g /\
  match gi_handler g with
  | None => True
  | Some h => bh_verify h (ii_blob i) = true /\ bh_equal h (ii_blob i) (bh_data h) = Some true
  end.
(** Recorded in the state file as it is. *)
Definition up_to_date (u8 : string -> N) (d : gdisk) (id : string) (g : gid) : Prop :=
  exists s i, gstored u8 d = Some s /\ assoc id (gs_ids s) = Some i /\ id_unchanged (gd_mt d) i g.

Definition called (evs : list gevent) : list string :=
  flat_map (fun ev => match ev with GCall id _ _ => [id] | _ => [] end) evs.
(** Steps of the subtasks, whose callbacks leave all inputs alone; tasks of other
    builders may fail. *)
Definition subtask (o : gobj) (ev : gevent) : Prop :=
  match ev with
  | GEnter _ | GFail => True
  | GCall _ _ w => forall f t id g, In (f, t) w -> In (id, g) (go_ids o) -> ~ In f (inputs_of g)
  | _ => False
  end.

(** The callback was given the present arguments, inputs, outputs and blob of its id. *)
Definition blob_of (g : gid) : list N := match gi_handler g with Some h => bh_data h | None => [] end.
Definition given (o : gobj) (c : gcall) : Prop :=
  exists g, assoc (gc_id c) (go_ids o) = Some g /\ ga_args (gc_art c) = go_args o /\
    ga_inputs (gc_art c) = inputs_of g /\ ga_outputs (gc_art c) = outputs_of g /\ ga_blob (gc_art c) = blob_of g.

(** The recorded entry [i] says what the last callback of the id did: it succeeded,
    with these inputs at these times, these outputs and an equal blob. *)
Definition id_recorded (bd : discipline) (d : gdisk) (id : string) (i : idinfo) : Prop :=
  exists a, gd_made d id = Some a /\
    recorded_now (ga_snap a) (ga_inputs a) (ii_inputs i) /\ ga_outputs a = ii_outputs i /\
    match bd id with None => ga_blob a = [] /\ ii_blob i = [] | Some R => R (ga_blob a) (ii_blob i) end.

(** Every program started uses these default arguments (patterns). *)
Definition same_args (args : command) (ev : gevent) : Prop :=
  match ev with GStart o => go_args o = args | _ => True end.

(** The entry [i] has the inputs, input times and outputs [g] asks for, but the blob
    handler rejects the stored blob or throws when comparing it. *)
Definition id_rejected (mt : times) (i : idinfo) (g : gid) : Prop :=
  recorded_now mt (inputs_of g) (ii_inputs i) /\ ii_outputs i = outputs_of g /\
  exists h, gi_handler g = Some h /\
    (bh_verify h (ii_blob i) = false \/ bh_equal h (ii_blob i) (bh_data h) = None).
