(** Common vocabulary: byte strings, splitting, joining, outcomes.
    Nothing here is specific to BuildCC. *)
From Coq Require Export String Ascii List Bool Arith NArith ZArith Lia Permutation.
Export ListNotations.
Global Open Scope string_scope.
Global Open Scope nat_scope.
Global Open Scope bool_scope.
Global Open Scope list_scope.
Infix "+++" := String.append (right associativity, at level 60).

(** Outcome of a call that may hit [env::assert_fatal]
    (lib/env/src/assert_fatal.cpp:38-44: exit(1) on the main thread, an
    exception on a worker thread). *)
Inductive outcome (A : Type) : Type :=
| Ok (a : A)
| Fatal.
Arguments Ok {A} a.
Arguments Fatal {A}.

Definition is_ok {A} (o : outcome A) : bool :=
  match o with Ok _ => true | Fatal => false end.

Definition obind {A B} (o : outcome A) (f : A -> outcome B) : outcome B :=
  match o with Ok a => f a | Fatal => Fatal end.

(** [map] with outcomes: stops at the first fatal one. *)
Fixpoint omap {A B} (f : A -> outcome B) (l : list A) : outcome (list B) :=
  match l with
  | [] => Ok []
  | a :: r =>
      match f a with
      | Fatal => Fatal
      | Ok b => match omap f r with Fatal => Fatal | Ok bs => Ok (b :: bs) end
      end
  end.

(** Characters. *)
Definition ch_slash : ascii := "/"%char.
Definition ch_dot : ascii := "."%char.
Definition ch_space : ascii := " "%char.
Definition ch_quote : ascii := """"%char.
Definition ch_under : ascii := "_"%char.

Definition str1 (c : ascii) : string := String c EmptyString.

Fixpoint str_mem (c : ascii) (s : string) : bool :=
  match s with
  | EmptyString => false
  | String a r => Ascii.eqb a c || str_mem c r
  end.

Fixpoint str_map (f : ascii -> ascii) (s : string) : string :=
  match s with
  | EmptyString => EmptyString
  | String a r => String (f a) (str_map f r)
  end.

(** Pieces of [s] between occurrences of [c]; always at least one piece. *)
Fixpoint pieces (c : ascii) (s : string) : list string :=
  match s with
  | EmptyString => [EmptyString]
  | String a r =>
      if Ascii.eqb a c then EmptyString :: pieces c r
      else match pieces c r with
           | [] => [str1 a]
           | p :: ps => String a p :: ps
           end
  end.

(** [fmt::join(l, sep)]. *)
Fixpoint join (sep : string) (l : list string) : string :=
  match l with
  | [] => EmptyString
  | [x] => x
  | x :: r => x +++ sep +++ join sep r
  end.

Definition mem_str (x : string) (l : list string) : bool :=
  existsb (String.eqb x) l.

(** Association lists with string keys (insertion order). *)
Fixpoint assoc {B} (k : string) (l : list (string * B)) : option B :=
  match l with
  | [] => None
  | (k', v) :: r => if String.eqb k k' then Some v else assoc k r
  end.

Fixpoint str_list_eqb (a b : list string) : bool :=
  match a, b with
  | [], [] => true
  | x :: xs, y :: ys => String.eqb x y && str_list_eqb xs ys
  | _, _ => false
  end.
