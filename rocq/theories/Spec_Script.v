(** What the theorems about build scripts talk about. *)
From Verif Require Import Prelude Model_Path Model_Json Model_Schema Model_Command Model_ToolchainConfig Model_Target Spec_Target
  Model_Gen Spec_Gen Model_Sync Spec_Sync Model_Api Spec_Api Model_Reg Spec_Reg Model_Project Spec_Project Model_Full Spec_Full Model_Script.

(** ** What an object is told *)

(** The options that hold files whose changes matter. *)
Definition file_option (x : sync_option) : bool :=
  match x with
  | SourceFiles | HeaderFiles | PchFiles | LibDeps | CompileDependencies | LinkDependencies => true
  | _ => false
  end.

(** A call of the script adds file [f] to option [x] of object [i] (Spec_Api.v). *)
Definition called (objects : list (string * node)) (s : list stmt) (i : string) (x : sync_option) (f : string) : Prop :=
  exists n ls cs c h, In (i, n) objects /\ In (SCalls i ls cs) s /\ In c cs /\ In (x, (f, h)) (adds (AE (nd_tc n) (nd_root n) ls) c).
(** The script copies or inserts option [x] of object [j] into object [i]. *)
Definition takes (s : list stmt) (i j : string) (x : sync_option) : Prop :=
  exists m xs, In x xs /\ (In (SCopy i j m xs) s \/ In (SInsert i j m xs) s).
(** ... directly, or through other objects. *)
Inductive told (objects : list (string * node)) (s : list stmt) : string -> sync_option -> string -> Prop :=
| told_called i x f : called objects s i x f -> told objects s i x f
| told_taken i j x f : takes s i j x -> told objects s j x f -> told objects s i x f.

(** Different names, no files yet (toolchains give flags only, C64). *)
Definition new_objects (objects : list (string * node)) : Prop :=
  NoDup (map fst objects) /\ forall i n x, In (i, n) objects -> file_option x = true -> entries x (nd_user n) = [].

(** ** What a process registers *)

(** The script, the generators it builds and the registry it leads to. *)
Record session := SE { se_script : list stmt; se_gens : list (string * gobj); se_reg : reg }.

(** Who writes what: targets their output, other builders the given files. *)
Definition writer (l : list (string * (tenv * disk))) (files : list (string * list string)) (b f : string) : Prop :=
  (exists e d, In (b, (e, d)) l /\ f = out_file e) \/ (exists fs, In (b, fs) files /\ In f fs).

(** The rule: who is told (or, a generator, reads) a file that another registered
    builder writes is registered with a dependency on it. *)
Record covered (objects : list (string * node)) (l : list (string * (tenv * disk))) (files : list (string * list string)) (se : session) : Prop := {
  co_told : forall i x f b, told objects (se_script se) i x f -> file_option x = true -> writer l files b f ->
    In b (rg_built (se_reg se)) -> In i (rg_built (se_reg se)) -> before (rg_edges (se_reg se)) b i;
  co_gen : forall a o k g f b, In (a, o) (se_gens se) -> In (k, g) (go_ids o) -> In f (inputs_of g) -> writer l files b f -> b <> a ->
    In a (rg_built (se_reg se)) -> In b (rg_built (se_reg se)) -> before (rg_edges (se_reg se)) b a }.
(** A simple discipline, call by call: who names such a file depends on the builder
    that writes it, and who takes files from a registered object depends on that. *)
Record declared (objects : list (string * node)) (l : list (string * (tenv * disk))) (files : list (string * list string)) (se : session) : Prop := {
  de_call : forall i x f b, called objects (se_script se) i x f -> file_option x = true -> writer l files b f ->
    In b (rg_built (se_reg se)) -> In i (rg_built (se_reg se)) /\ before (rg_edges (se_reg se)) b i;
  de_sync : forall i j x, takes (se_script se) i j x -> file_option x = true ->
    In j (rg_built (se_reg se)) -> In i (rg_built (se_reg se)) /\ before (rg_edges (se_reg se)) j i;
  de_gen : forall a o k g f b, In (a, o) (se_gens se) -> In (k, g) (go_ids o) -> In f (inputs_of g) -> writer l files b f -> b <> a ->
    In a (rg_built (se_reg se)) -> In b (rg_built (se_reg se)) -> before (rg_edges (se_reg se)) b a }.

(** ** Histories of processes that execute such scripts *)

(** What a process has built when it calls Reg::Run comes from its session. *)
Definition follows (objects : list (string * node)) (se : session) (F : full) : Prop :=
  (exists st, script_run (SS objects []) (se_script se) = SOk st /\
     forall i c, In (i, c) (p_built (f_proj F)) -> exists u, In (i, u) (ss_built st) /\ c = cfg_of u) /\
  incl (f_objs F) (se_gens se).
Definition sadmissible (rg : regime) (bd : string -> discipline) (objects : list (string * node)) (sessions : session -> Prop)
    (F : full) (h : fhist) (ev : fevent) : Prop :=
  match ev with
  | FP (PRun _ r) => exists se, sessions se /\ se_reg se = r /\ follows objects se F
  | _ => fadmissible rg bd F h ev
  end.
Inductive shistory (rg : regime) (bd : string -> discipline) (u8 : string -> N) (mt0 : Model_Target.times)
    (l : list (string * (tenv * disk))) (files : list (string * list string)) (gids : list string)
    (objects : list (string * node)) (sessions : session -> Prop)
  : list fevent -> fhist -> full -> Prop :=
| shistory_nil : shistory rg bd u8 mt0 l files gids objects sessions []
    (FH (fun id => match assoc id l with Some (_, d) => hist0 d | None => HS (fun _ => 0%N) None None false end)
        (fun _ => ghist0 mt0))
    (finit mt0 l files gids)
| shistory_snoc evs h F ev F' :
    shistory rg bd u8 mt0 l files gids objects sessions evs h F -> sadmissible rg bd objects sessions F h ev -> fstep u8 F ev = Some F' ->
    shistory rg bd u8 mt0 l files gids objects sessions (evs ++ [ev]) (ftrack u8 F h ev) F'.
