(** What a data race is, which updates are lost, what a stuck run is. *)
From Verif Require Import Prelude Model_Race.

Definition touches (a : act) (l : loc) : Prop := a = Read l \/ a = Write l.

(** Two tasks are about to access the same place, at least one of them to write
    it, and nothing makes either wait for the other. *)
Definition race (s : mstate) (l : loc) : Prop :=
  exists k1 k2 a1 a2 r1 r2,
    k1 <> k2 /\
    ms_task s k1 = Running (a1 :: r1) /\ ms_task s k2 = Running (a2 :: r2) /\
    touches a1 l /\ touches a2 l /\ (a1 = Write l \/ a2 = Write l).

(** The list of the sources recorded for target [b], followed through an
    execution: a read copies the list to the reader, a write puts back the
    reader's copy with the writer's own entry added; the write of the final
    update of the whole record (K_end) puts back the copy. *)
Definition sees (mine : task -> list task) (k : task) (v : list task) : task -> list task :=
  fun l => if task_eq_dec k l then v else mine l.
Fixpoint replay (b : nat) (log : list (task * act)) (memory : list task)
         (mine : task -> list task) : list task :=
  match log with
  | [] => memory
  | (k, Read (Part b' S_sources)) :: r =>
      if Nat.eqb b b' then replay b r memory (sees mine k memory) else replay b r memory mine
  | (k, Write (Part b' S_sources)) :: r =>
      if Nat.eqb b b'
      then replay b r (match k with K_end _ => mine k | _ => mine k ++ [k] end) mine
      else replay b r memory mine
  | _ :: r => replay b r memory mine
  end.
Definition records (b : nat) (log : list (task * act)) : list task :=
  replay b log [] (fun _ => []).

(** The updates made: one per write, except those of K_end. *)
Fixpoint updates (b : nat) (log : list (task * act)) : list task :=
  match log with
  | [] => []
  | (K_end _, _) :: r => updates b r
  | (k, Write (Part b' S_sources)) :: r => if Nat.eqb b b' then k :: updates b r else updates b r
  | _ :: r => updates b r
  end.

(** The builders can be put in an order. *)
Definition orderly (p : program) : Prop :=
  exists rank : nat -> nat, forall a b, In (a, b) (pr_deps p) -> rank a < rank b.

Definition all_ended (p : program) (s : mstate) : Prop :=
  forall k, exists_task p k -> ms_task s k = Ended.

(** What task [k] did, in order. *)
Definition did (k : task) (log : list (task * act)) : list act :=
  map snd (filter (fun x => if task_eq_dec k (fst x) then true else false) log).

(** The n-th access of [k] in [log] reads [l], and the write it sees is the i-th
    access of task [j]. *)
Definition sees_write (log : list (task * act)) (l : loc) (k : task) (n : nat) (j : task) (i : nat) : Prop :=
  exists before between after,
    log = (before ++ (j, Write l) :: between) ++ (k, Read l) :: after /\
    (forall m, ~ In (m, Write l) between) /\
    List.length (did k (before ++ (j, Write l) :: between)) = n /\
    List.length (did j before) = i.
