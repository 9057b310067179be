(** ScopedStorage / Storage. lib/env/include/env/storage.h:32-111.
    Objects are numbered in the order of their construction; a type is its
    typeid name. [o_alive]-style bookkeeping: the log of destructor calls. *)
From Verif Require Import Prelude.

Record storage := STO {
  st_ptrs : list (string * (nat * string));   (* ptrs_: identifier -> (ptr, typeid_name) *)
  st_next : nat;                              (* objects constructed so far *)
  st_destroyed : list nat }.                  (* destructor calls, in order *)
Definition storage_empty : storage := STO [] 0 [].

Definition find_ptr (s : storage) (id : string) : option (nat * string) := assoc id (st_ptrs s).

(** storage.h:39-53 Add: emplace does not replace an existing entry; the new
    object is returned in any case. *)
Definition s_add (s : storage) (id ty : string) : storage * nat :=
  let obj := st_next s in
  (STO (match find_ptr s id with
        | Some _ => st_ptrs s
        | None => st_ptrs s ++ [(id, (obj, ty))]
        end) (S obj) (st_destroyed s), obj).

(** storage.h:55-60 Clear (the order of an unordered_map, here insertion order);
    also the destructor of ScopedStorage (storage.h:35). *)
Definition s_clear (s : storage) : storage :=
  STO [] (st_next s) (st_destroyed s ++ map (fun p => fst (snd p)) (st_ptrs s)).

(** storage.h:62-77 ConstRef, Ref. *)
Definition s_ref (s : storage) (id ty : string) : outcome nat :=
  match find_ptr s id with
  | None => Fatal
  | Some (obj, t) => if String.eqb ty t then Ok obj else Fatal
  end.

(** storage.h:79-81 Contains; 83-92 Valid. *)
Definition s_contains (s : storage) (id : string) : bool :=
  match find_ptr s id with Some _ => true | None => false end.
Definition s_valid (s : storage) (id ty : string) : bool :=
  match find_ptr s id with Some (_, t) => String.eqb ty t | None => false end.

Inductive sop := SAdd (id ty : string) | SClear.
Definition s_step (s : storage) (o : sop) : storage :=
  match o with SAdd id ty => fst (s_add s id ty) | SClear => s_clear s end.
Definition s_run (l : list sop) : storage := fold_left s_step l storage_empty.
