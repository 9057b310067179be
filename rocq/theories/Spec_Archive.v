(** What the theorems about the contents of static libraries talk about. *)
From Coq Require Import Permutation.
From Verif Require Import Prelude Model_Path Model_Command Model_ToolchainConfig Model_Target Spec_Target Model_Archive.

Definition gcc_static (e : tenv) : Prop := te_link_command e = "{archiver} rcs {output} {compiled_sources}".

(** The library consists of the object files, as they are on disk, of the sources
    of [c], and of nothing else. *)
Definition library_exact (e : tenv) (c : cfg) (d : disk) (lib : option archive) : Prop :=
  exists m, lib = Some m /\
    exists arts, Forall2 (fun s a => d_obj d (obj_of e s) = Some a) (sources c) arts /\
      Permutation m (combine (map (member_name e) (sources c)) arts).

(** The histories of Spec_Target.v with a library that does not exist at first; no
    source is removed from the target; a failing command leaves nothing but members
    with the names of the object files it was given, each at most as often. *)
Definition keeps_sources (st : tstate) (ev : event) : Prop :=
  match ev with EvStart c _ => forall s, In s (sources (s_cfg st)) -> In s (sources c) | _ => True end.
Definition occurrences (n : string) (l : list string) : nat := length (filter (String.eqb n) l).
Definition leaves_own (e : tenv) (st : tstate) (ev : event) (lo : option archive) : Prop :=
  match ev, lo with
  | EvLinkExec _, Some m => forall n, occurrences n (map fst m) <= occurrences n (map (member_name e) (sources (s_cfg st)))
  | _, _ => True
  end.
Inductive lhistory (rg : regime) (e : tenv) (d0 : disk) : list (event * option archive) -> hist -> tstate -> option archive -> Prop :=
| lhistory_nil : lhistory rg e d0 [] (hist0 d0) (init d0) None
| lhistory_snoc evs h st lib ev lo st' lib' :
    lhistory rg e d0 evs h st lib -> admissible rg e h st ev -> keeps_sources st ev -> leaves_own e st ev lo ->
    lstep e st lib ev lo = Some (st', lib') ->
    lhistory rg e d0 (evs ++ [(ev, lo)]) (track e h st ev) st' lib'.
