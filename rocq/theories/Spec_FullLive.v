(** What the theorems about runs of programs with targets and generators coming to
    an end talk about. *)
From Verif Require Import Prelude Model_Path Model_Schema Spec_Json Model_Command Model_ToolchainConfig Model_Target Spec_Target
  Model_Gen Spec_Gen Spec_GenLive Model_Reg Spec_Reg Model_Project Spec_Project Spec_ProjectLive Model_Full Spec_Full.

(** The event belongs to the run, and nothing goes wrong in it: as in
    Spec_ProjectLive.v for targets and in Spec_GenLive.v for generators. *)
Definition fgoes_well (F : full) (ev : fevent) : Prop :=
  match ev with
  | FP pe => goes_well (f_proj F) pe
  | FStep i x => gown x /\ forall o, In (i, o) (f_objs F) -> ggood o x
  | _ => False
  end.
(** All the events [evs] (after the events [before]) do. *)
Definition fsmoothly (rg : regime) (bd : string -> discipline) (u8 : string -> N) (mt0 : times)
    (l : list (string * (tenv * disk))) (files : list (string * list string)) (gids : list string) (before evs : list fevent) : Prop :=
  forall a ev b h F, evs = a ++ ev :: b -> fhistory rg bd u8 mt0 l files gids (before ++ a) h F -> fgoes_well F ev.

(** The output of a registered target. *)
Definition made_by_target (p : project) (r : reg) (f : string) : Prop :=
  exists j ej sj cj, In (j, (ej, sj)) (p_targets p) /\ In (j, cj) (p_built p) /\ In j (rg_built r) /\ f = out_file ej.
(** Whenever the task of a builder starts, the files it tracks (its inputs) exist,
    except those the registered targets make. *)
Definition ffiles_there (rg : regime) (bd : string -> discipline) (u8 : string -> N) (mt0 : times)
    (l : list (string * (tenv * disk))) (files : list (string * list string)) (gids : list string)
    (r : reg) (before evs : list fevent) : Prop :=
  forall a i b h F, evs = a ++ FP (PBegin i) :: b -> fhistory rg bd u8 mt0 l files gids (before ++ a) h F ->
    (forall e st c f, In (i, (e, st)) (p_targets (f_proj F)) -> In (i, c) (p_built (f_proj F)) -> In f (tracked c) ->
       d_mt (s_disk st) f <> None \/ made_by_target (f_proj F) r f) /\
    (forall g o k gi f, In (i, g) (f_gens F) -> In (i, o) (f_objs F) -> In (k, gi) (go_ids o) -> In f (inputs_of gi) ->
       gd_mt (g_disk g) f <> None \/ made_by_target (f_proj F) r f).

(** The ids of the generators can be used: strings are UTF-8, blob handlers accept
    their own data and what is stored. *)
Definition gens_usable (u8 : string -> N) (F : full) : Prop :=
  forall i g o, In (i, g) (f_gens F) -> In (i, o) (f_objs F) ->
    gstorable o /\ accepts_own o /\ accepts_stored (gstored u8 (g_disk g)) o.

(** The steps of a run except for what builders that are neither targets nor
    custom generators do on their own. *)
Definition fcounted (ev : fevent) : bool := match ev with FP pe => counted pe | _ => true end.
Definition gwork_of (objs : list (string * gobj)) : nat := list_sum (map (fun x => 2 + 2 * length (go_ids (snd x))) objs).
