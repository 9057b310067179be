(** What the theorems about --clean talk about. *)
From Verif Require Import Prelude Model_Path Spec_Path Model_Schema Model_Command Model_ToolchainConfig Model_Target Spec_Target
  Model_Gen Spec_Gen Model_Reg Spec_Reg Model_Project Spec_Project Model_Full Spec_Full Model_Targets Spec_Targets Model_Args Model_Clean.

(** The file [f] is the directory [dir] or something in it (absolute paths). *)
Definition inside (dir f : string) : Prop := exists l, leads_to [] f = l ++ leads_to [] dir.

(** A relative path that stays below where it starts and names something. *)
Definition plain_path (s : string) : Prop := ~ absolute s /\ ~ In ".." (names s) /\ exists n, In n (names s) /\ n <> ".".
(** Its names without the ".". *)
Definition proper_names (s : string) : list string := filter (fun n => negb (String.eqb n ".")) (names s).

(** Several targets and generators with different ids, and different outputs of the
    targets, whose state files and outputs are in [dir]; all see the same files.
    What the artifacts and state files are is left open. *)
Definition in_build_dir (dir : string) (mt : times) (l : disks) (g : gdisks) : Prop :=
  NoDup (map fst l) /\ NoDup (map (fun x => out_file (fst (snd x))) l) /\
  (forall id e d, In (id, (e, d)) l -> templates_ok e /\ d_mt d = mt /\ inside dir (out_file e) /\ inside dir (target_state_file e)) /\
  NoDup (map fst g) /\ (forall j, In j (map fst g) -> ~ In j (map fst l)) /\
  (forall j file d, In (j, (file, d)) g -> gd_mt d = mt /\ inside dir file).

(** What happens after a process that has done nothing so far found the files [mt]
    and the artifacts [l] and is in state [F0]; admissible as in Spec_Full.v, times
    are compared with those found. *)
Inductive since (rg : regime) (bd : string -> discipline) (u8 : string -> N) (mt : times) (l : disks) (F0 : full)
  : list fevent -> fhist -> full -> Prop :=
| since_nil : since rg bd u8 mt l F0 []
    (FH (fun id => match assoc id l with Some (_, d) => hist0 d | None => HS (fun _ => 0%N) None None false end)
        (fun _ => ghist0 mt)) F0
| since_snoc evs h F ev F' :
    since rg bd u8 mt l F0 evs h F -> fadmissible rg bd F h ev -> fstep u8 F ev = Some F' ->
    since rg bd u8 mt l F0 (evs ++ [ev]) (ftrack u8 F h ev) F'.
