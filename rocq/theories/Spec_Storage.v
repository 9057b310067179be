(** The storage as its user sees it: the history of Add and Clear calls. *)
From Verif Require Import Prelude Model_Storage.

(** The first Add of [id] since the last Clear: the number of Add calls made
    before it, and the type. *)
Fixpoint first_add (id : string) (n : nat) (cur : option (nat * string)) (l : list sop) : option (nat * string) :=
  match l with
  | [] => cur
  | SClear :: r => first_add id n None r
  | SAdd i ty :: r =>
      first_add id (S n) (match cur with Some x => Some x | None => if String.eqb i id then Some (n, ty) else None end) r
  end.
Definition holds (l : list sop) (id : string) : option (nat * string) := first_add id 0 None l.

Fixpoint adds (l : list sop) : nat :=
  match l with [] => 0 | SAdd _ _ :: r => S (adds r) | SClear :: r => adds r end.

(** No identifier is added twice without a Clear in between. *)
Fixpoint distinct_ids (seen : list string) (l : list sop) : bool :=
  match l with
  | [] => true
  | SClear :: r => distinct_ids [] r
  | SAdd i _ :: r => negb (mem_str i seen) && distinct_ids (i :: seen) r
  end.
