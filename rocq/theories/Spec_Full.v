(** What the theorems about programs with targets and generators talk about. *)
From Verif Require Import Prelude Model_Path Model_Schema Model_Command Model_ToolchainConfig Model_Target Spec_Target
  Model_Gen Spec_Gen Model_Reg Spec_Reg Model_Project Spec_Project Model_Full.

(** ** Histories *)

Record fhist := FH { fh_p : phist; fh_g : string -> ghist }.
Fixpoint ptracks (p : project) (h : phist) (evs : list pevent) : phist :=
  match evs with
  | [] => h
  | ev :: r => match pstep p ev with Some p' => ptracks p' (ptrack p h ev) r | None => h end
  end.
Fixpoint gtracks (u8 : string -> N) (h : ghist) (g : gstate) (evs : list gevent) : ghist :=
  match evs with
  | [] => h
  | ev :: r => match gstep u8 g ev with Some g' => gtracks u8 (gtrack h g ev) g' r | None => h end
  end.
Definition ftrack (u8 : string -> N) (F : full) (h : fhist) (ev : fevent) : fhist :=
  FH (ptracks (f_proj F) (fh_p h) (pdelivered u8 F ev))
     (fun j => match assoc j (f_gens F) with
               | Some g => gtracks u8 (fh_g h j) g (gdelivered u8 F ev j g)
               | None => fh_g h j
               end).

(** Later than every time the file has had. *)
Definition flater (h : fhist) (F : full) (f : string) (t : option N) : Prop :=
  later (fh_p h) (f_proj F) f t /\ forall j, In j (map fst (f_gens F)) -> fresh (fh_g h j) f t.

(** ** Dependencies *)

(** Every file that one builder may write and that is an input of (an id of)
    another generator is covered by a dependency in the registry. *)
Definition gwired (F : full) (r : reg) : Prop :=
  forall b a f o k g, In b (rg_built r) -> writes (f_proj F) b f -> b <> a ->
    In a (rg_built r) -> In (a, o) (f_objs F) -> In (k, g) (go_ids o) -> In f (inputs_of g) -> before (rg_edges r) b a.

(** ** What the user and the environment may do

    What is admissible for each target (Spec_Project.v) and each generator
    (Spec_Gen.v); the output of a target is written by nobody else; files written
    get later times in the regime [Forward]. About the order of events of
    different builders nothing is assumed but the registered dependencies. *)
Definition fadmissible (rg : regime) (bd : string -> discipline) (F : full) (h : fhist) (ev : fevent) : Prop :=
  match ev with
  | FP pe =>
      padmissible rg (f_proj F) (fh_p h) pe /\
      match pe with
      | PEdit f t => forall j g, In (j, g) (f_gens F) -> gadmissible rg (bd j) (fh_g h j) g (GEdit f t)
      | PRun _ r => gwired F r
      | PStep i x (Some t) => forall e st, In (i, (e, st)) (p_targets (f_proj F)) -> rg = Forward -> flater h F (out_file e) t
      | PWrite _ f t => rg = Forward -> flater h F f t
      | PStop l => forall j g, In (j, g) (f_gens F) -> grunning g = true ->
          match assoc j l with Some _ => True | None => rg = Forward \/ gh_taint (fh_g h j) = None end
      | _ => True
      end
  | FForget i => forall g, In (i, g) (f_gens F) -> gadmissible rg (bd i) (fh_g h i) g GDropStore
  | FBuild i o => forall g, In (i, g) (f_gens F) -> gadmissible rg (bd i) (fh_g h i) g (GStart o)
  | FStep i x =>
      (forall g, In (i, g) (f_gens F) -> gadmissible rg (bd i) (fh_g h i) g x) /\
      NoDup (map fst (writes_of x)) /\
      (forall f t, In (f, t) (writes_of x) -> ~ is_output (f_proj F) f /\ (rg = Forward -> flater h F f t))
  end.

(** At the beginning. *)
Definition fresh_full (mt0 : times) (l : list (string * (tenv * disk))) (gids : list string) : Prop :=
  fresh_project mt0 l /\ NoDup gids /\ (forall j, In j gids -> ~ In j (map fst l)).

Inductive fhistory (rg : regime) (bd : string -> discipline) (u8 : string -> N) (mt0 : times)
    (l : list (string * (tenv * disk))) (files : list (string * list string)) (gids : list string)
  : list fevent -> fhist -> full -> Prop :=
| fhistory_nil : fhistory rg bd u8 mt0 l files gids []
    (FH (fun id => match assoc id l with Some (_, d) => hist0 d | None => HS (fun _ => 0%N) None None false end)
        (fun _ => ghist0 mt0))
    (finit mt0 l files gids)
| fhistory_snoc evs h F ev F' :
    fhistory rg bd u8 mt0 l files gids evs h F -> fadmissible rg bd F h ev -> fstep u8 F ev = Some F' ->
    fhistory rg bd u8 mt0 l files gids (evs ++ [ev]) (ftrack u8 F h ev) F'.

(** Nothing but the program itself acts. *)
Definition fundisturbed (ev : fevent) : Prop :=
  match ev with FP pe => undisturbed_run pe | FStep _ _ => True | _ => False end.

(** All targets and generators see the same last-write times. *)
Definition one_time (F : full) : Prop := exists mt : times,
  (forall id e st, In (id, (e, st)) (p_targets (f_proj F)) -> d_mt (s_disk st) = mt) /\
  (forall j g, In (j, g) (f_gens F) -> gd_mt (g_disk g) = mt).

(** No state file is cut short without notice (as in Spec_Project.v). *)
Definition ffull_writes (ev : fevent) : Prop :=
  match ev with
  | FP pe => full_writes pe
  | FStep _ x => forall n, x <> GFinish (WShort n true)
  | _ => True
  end.

(** Any number of runs of the program with the same targets [built] and generators
    [objs], during and between which the user (or a builder that is none of them)
    changes no tracked file and no input, and no state file is deleted. *)
Definition fagain (built : list (string * cfg)) (objs : list (string * gobj)) (ev : fevent) : Prop :=
  match ev with
  | FP pe =>
      again built pe /\
      match pe with
      | PEdit f _ | PWrite _ f _ => forall j o k g, In (j, o) objs -> In (k, g) (go_ids o) -> ~ In f (inputs_of g)
      | _ => True
      end
  | FForget i => ~ In i (map fst objs)
  | FBuild i o => In (i, o) objs
  | FStep _ _ => True
  end.
