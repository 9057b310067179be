(** What the theorems about whole programs talk about. *)
From Verif Require Import Prelude Model_Path Model_Schema Model_Command Model_ToolchainConfig Model_Target Spec_Target
  Model_Reg Spec_Reg Model_Project.

(** ** Histories of the single targets *)

Definition phist := string -> hist.
(** The histories after the events [evs] happened to a target. *)
Fixpoint tracks (e : tenv) (h : hist) (st : tstate) (evs : list event) : hist :=
  match evs with
  | [] => h
  | ev :: r => match step e st ev with Some st' => tracks e (track e h st ev) st' r | None => h end
  end.
Definition ptrack (p : project) (h : phist) (ev : pevent) : phist :=
  fun id => match assoc id (p_targets p) with
            | Some (e, st) => tracks e (h id) st (delivered p ev id st)
            | None => h id
            end.

(** Later than every time the file has had. *)
Definition later (h : phist) (p : project) (f : string) (t : option N) : Prop :=
  forall v id, t = Some v -> In id (map fst (p_targets p)) -> (h_next (h id) f <= v)%N.

(** ** Who writes what *)

Definition writes (p : project) (b f : string) : Prop :=
  (exists e st, In (b, (e, st)) (p_targets p) /\ f = out_file e) \/
  (exists fs, In (b, fs) (p_gens p) /\ In f fs).
Definition is_output (p : project) (f : string) : Prop :=
  exists id e st, In (id, (e, st)) (p_targets p) /\ f = out_file e.

(** Every file one builder may write and another one tracks is covered by a
    (direct or transitive) dependency in the registry. *)
Definition wired (p : project) (r : reg) : Prop :=
  forall b a f c, In b (rg_built r) -> writes p b f ->
    In a (rg_built r) -> In (a, c) (p_built p) -> In f (tracked c) -> before (rg_edges r) b a.

(** ** What the user and the environment may do

    The regimes are those of a single target (Spec_Target.v): what the user does
    to files, configurations, state files and processes is admissible for every
    target concerned, nothing more.  Nobody but a target's link writes its output,
    and a link that leaves a new output behind gives it a later time than it ever
    had.  Nothing is assumed about when builders write their files: that follows
    from the registered dependencies ([wired]). *)
Definition padmissible (rg : regime) (p : project) (h : phist) (ev : pevent) : Prop :=
  match ev with
  | PEdit f t =>
      ~ is_output p f /\
      (forall id e st, In (id, (e, st)) (p_targets p) -> admissible rg e (h id) st (EvEdit f t))
  | PForget i => forall e st, In (i, (e, st)) (p_targets p) -> s_pc st = Idle
  | PBuild i c ord => forall e st, In (i, (e, st)) (p_targets p) -> permitted e (h i) c
  | PRun _ r => wired p r
  | PBegin _ | PFail _ | PEnd _ _ => True
  | PStep i x t =>
      forall e st st', In (i, (e, st)) (p_targets p) -> step e st x = Some st' ->
        admissible rg e (h i) st x /\
        match t with
        | Some (Some v) => later h p (out_file e) (Some v)
        | Some None => d_tgt (s_disk st') = None
        | None => links e st x = false /\ d_tgt (s_disk st') = d_tgt (s_disk st)
        end
  | PWrite _ f t => ~ is_output p f /\ (rg = Forward -> later h p f t)
  | PStop l =>
      forall id e st, In (id, (e, st)) (p_targets p) -> running st = true ->
        match assoc id l with Some _ => True | None => rg = Forward \/ h_taint (h id) = None end
  end.

(** A project at the beginning: several targets with different ids and outputs,
    none of which exists yet, over the same files. *)
Definition fresh_project (mt0 : times) (l : list (string * (tenv * disk))) : Prop :=
  NoDup (map fst l) /\ NoDup (map (fun x => out_file (fst (snd x))) l) /\
  (forall id e d, In (id, (e, d)) l -> templates_ok e /\ d_mt d = mt0 /\ mt0 (out_file e) = None /\ d_tgt d = None).

Inductive phistory (rg : regime) (l : list (string * (tenv * disk))) (gens : list (string * list string))
  : list pevent -> phist -> project -> Prop :=
| phistory_nil : phistory rg l gens [] (fun id => match assoc id l with Some (_, d) => hist0 d | None => HS (fun _ => 0%N) None None false end) (pinit l gens)
| phistory_snoc evs h p ev p' :
    phistory rg l gens evs h p -> padmissible rg p h ev -> pstep p ev = Some p' ->
    phistory rg l gens (evs ++ [ev]) (ptrack p h ev) p'.

(** Nothing but the program itself acts. *)
Definition undisturbed_run (ev : pevent) : Prop :=
  match ev with PBegin _ | PStep _ _ _ | PWrite _ _ _ | PFail _ | PEnd _ _ => True | _ => False end.

(** No state file is cut short without notice (save_file can do that,
    lib/env/include/env/util.h:50-67). *)
Definition full_writes (ev : pevent) : Prop := forall id n t, ev <> PStep id (EvEnd (WShort n true)) t.

(** Any number of runs of the program with the same targets and options, during
    and between which nothing the targets [built] track is changed by the user or
    by a generator and no state file is deleted. *)
Definition again (built : list (string * cfg)) (ev : pevent) : Prop :=
  match ev with
  | PEdit f _ | PWrite _ f _ => forall id c, In (id, c) built -> ~ In f (tracked c)
  | PForget id => ~ In id (map fst built)
  | PBuild id c _ => In (id, c) built
  | _ => True
  end.
