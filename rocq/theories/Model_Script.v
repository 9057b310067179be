(** What a build script does to its targets while it registers them: calls,
    Copy/Insert between objects, Build().
    lib/target/include/target/api/*.h, lib/target/src/api/sync_api.cpp,
    lib/target/include/target/target_info.h:40-74 (TargetInfo),
    lib/target/include/target/target.h:63-83 (Target, a TargetInfo that is built).

    Simplification: all objects exist from the start; options given to a target
    after its Build() are in Model_Late.v. *)
From Verif Require Import Prelude Model_Path Model_Json Model_Schema Model_ToolchainConfig Model_Target Model_Sync Model_Api.

(** A TargetInfo or the TargetInfo part of a target: toolchain configuration, root
    directory and options (target_info.h:66-70). *)
Record node := ND { nd_tc : tconfig; nd_root : string; nd_user : tschema }.

Inductive stmt :=
| SCalls (i : string) (ls : listing) (cs : list call)    (* calls on object [i]; [ls]: the directories then *)
| SCopy (i j : string) (m : passing) (xs : list sync_option)     (* i.Copy(j, xs) *)
| SInsert (i j : string) (m : passing) (xs : list sync_option)   (* i.Insert(j, xs) *)
| SBuild (i : string).                                   (* i.Build() *)

Record sstate := SS { ss_nodes : list (string * node); ss_built : list (string * tschema) }.
(** [SUndefined]: an object that does not exist, or Copy/Insert of an object into
    itself (see Model_Sync.v). *)
Inductive sres := SOk (st : sstate) | SFatal | SUndefined.

Fixpoint put_user (i : string) (u : tschema) (l : list (string * node)) : list (string * node) :=
  match l with
  | [] => []
  | (j, n) :: r => (if String.eqb j i then (j, ND (nd_tc n) (nd_root n) u) else (j, n)) :: put_user i u r
  end.
(** sync_api.cpp:26-208 *)
Definition sync (st : sstate) (i j : string) (f : tschema -> tschema -> tschema * tschema) : sres :=
  if String.eqb i j then SUndefined
  else match assoc i (ss_nodes st), assoc j (ss_nodes st) with
       | Some a, Some b =>
           let r := f (nd_user a) (nd_user b) in
           SOk (SS (put_user j (snd r) (put_user i (fst r) (ss_nodes st))) (ss_built st))
       | _, _ => SUndefined
       end.
Definition script_step (st : sstate) (s : stmt) : sres :=
  match s with
  | SCalls i ls cs =>
      match assoc i (ss_nodes st) with
      | None => SUndefined
      | Some n =>
          match api_run (AE (nd_tc n) (nd_root n) ls) (nd_user n) cs with
          | Ok u => SOk (SS (put_user i u (ss_nodes st)) (ss_built st))
          | Fatal => SFatal
          end
      end
  | SCopy i j m xs => sync st i j (fun a b => copy m a b xs)
  | SInsert i j m xs => sync st i j (fun a b => insert m a b xs)
  | SBuild i =>
      match assoc i (ss_nodes st) with
      | None => SUndefined
      | Some n => SOk (SS (ss_nodes st) (ss_built st ++ [(i, nd_user n)]))
      end
  end.
Fixpoint script_run (st : sstate) (l : list stmt) : sres :=
  match l with
  | [] => SOk st
  | s :: r => match script_step st s with SOk st1 => script_run st1 r | x => x end
  end.
