(** The contents of a static library built by a gcc target:
    "{archiver} rcs {output} {compiled_sources}", targets/include/targets/target_gcc.h:41-42,
    executed by lib/target/src/target/friend/link_target.cpp:68-105. Nothing deletes the
    library before it is linked again.

    GNU ar is not part of the code: [ar_rcs] is what its manual says about "rcs",
    with the treatment of equal names of binutils (ar.c, replace_members: a member
    added by the same command is not replaced). The target is that of Model_Target.v. *)
From Verif Require Import Prelude Model_Path Model_Json Model_Schema Model_Command Model_ToolchainConfig Model_Target.

(** Members, by file name without directories. *)
Definition archive := list (string * obj_art).

(** [true]: was in the archive when the command started. *)
Fixpoint ar_replace (l : list (bool * (string * obj_art))) (f : string * obj_art) : list (bool * (string * obj_art)) :=
  match l with
  | [] => [(false, f)]
  | (old, m) :: r => if old && String.eqb (fst m) (fst f) then (false, f) :: r else (old, m) :: ar_replace r f
  end.
Definition ar_rcs (a : option archive) (files : list (string * obj_art)) : archive :=
  map snd (fold_left ar_replace files (map (fun m => (true, m)) (match a with Some l => l | None => [] end))).

(** compile_object.cpp:109-164, 32-40: the object files given to the command, in
    the order of object_files_. [None]: one of them does not exist (ar fails). *)
Definition member_name (e : tenv) (s : string) : string := filename (obj_of e s).
Fixpoint object_files (e : tenv) (objs : string -> option obj_art) (ord : list string) : option (list (string * obj_art)) :=
  match ord with
  | [] => Some []
  | s :: r =>
      match objs (obj_of e s), object_files e objs r with
      | Some a, Some l => Some ((member_name e s, a) :: l)
      | _, _ => None
      end
  end.

(** A step of the target, with the library on disk. [lo]: what a failing command
    leaves behind. *)
Definition lstep (e : tenv) (st : tstate) (lib : option archive) (ev : event) (lo : option archive)
  : option (tstate * option archive) :=
  match step e st ev with
  | None => None
  | Some st' =>
      match ev with
      | EvLinkExec r =>
          match link_command e (s_cfg st) (s_ord st) with
          | FOk cmd =>
              match run_res cmd r with
              | XOk =>
                  match object_files e (d_obj (s_disk st)) (s_ord st) with
                  | Some files => Some (st', Some (ar_rcs lib files))
                  | None => None
                  end
              | XFail _ => Some (st', lo)
              | XNotRun => Some (st', lib)
              end
          | _ => None
          end
      | EvDelTgt => Some (st', None)
      | _ => Some (st', lib)
      end
  end.

Fixpoint lexec (e : tenv) (st : tstate) (lib : option archive) (evs : list (event * option archive)) : option (tstate * option archive) :=
  match evs with
  | [] => Some (st, lib)
  | (ev, lo) :: r => match lstep e st lib ev lo with Some (st', lib') => lexec e st' lib' r | None => None end
  end.
