(** What splitting and trimming are about, independently of the code. *)
From Verif Require Import Prelude.

(** A list of pieces without its last piece if that one is empty. *)
Fixpoint drop_last_empty (l : list string) : list string :=
  match l with
  | [] => []
  | [x] => if String.eqb x "" then [] else [x]
  | x :: r => x :: drop_last_empty r
  end.

(** Blank, tab, line feed, vertical tab, form feed, carriage return. *)
Definition whitespace (c : ascii) : Prop := In (N_of_ascii c) [32; 9; 10; 11; 12; 13]%N.
Fixpoint all_whitespace (s : string) : Prop :=
  match s with EmptyString => True | String a r => whitespace a /\ all_whitespace r end.
Definition starts_with (s : string) (c : ascii) : Prop := exists r, s = String c r.
Definition ends_with (s : string) (c : ascii) : Prop := exists r, s = r +++ str1 c.
