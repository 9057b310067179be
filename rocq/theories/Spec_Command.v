(** What command patterns mean, independently of the scanner. *)
From Verif Require Import Prelude Model_Command.

(** A pattern is a sequence of literal characters and named fields. *)
Inductive token := Lit (c : ascii) | Field (name : string).

(** Field names: a letter or '_', then letters, digits and '_'. *)
Definition letter (c : ascii) : Prop :=
  (97 <= nat_of_ascii c <= 122) \/ (65 <= nat_of_ascii c <= 90) \/ c = "_"%char.
Definition digit (c : ascii) : Prop := 48 <= nat_of_ascii c <= 57.
Fixpoint all_chars (P : ascii -> Prop) (s : string) : Prop :=
  match s with EmptyString => True | String c r => P c /\ all_chars P r end.
Definition field_name (s : string) : Prop :=
  match s with
  | EmptyString => False
  | String c r => letter c /\ all_chars (fun c => letter c \/ digit c) r
  end.
Definition token_ok (t : token) : Prop :=
  match t with Lit _ => True | Field n => field_name n end.

(** How a token is written in a pattern: braces are doubled. *)
Definition render1 (t : token) : string :=
  match t with
  | Lit "{"%char => "{{"
  | Lit "}"%char => "}}"
  | Lit c => String c ""
  | Field n => "{" +++ n +++ "}"
  end.
Fixpoint render (l : list token) : string :=
  match l with [] => "" | t :: r => render1 t +++ render r end.

(** What it stands for. *)
Fixpoint expand (val : string -> option string) (l : list token) : option string :=
  match l with
  | [] => Some ""
  | Lit c :: r => option_map (String c) (expand val r)
  | Field n :: r =>
      match val n, expand val r with Some v, Some t => Some (v +++ t) | _, _ => None end
  end.

(** Value of key [k] in a list of pairs: the first one given. *)
Definition first_value (k : string) (l : list (string * string)) : option string :=
  option_map snd (find (fun kv => String.eqb (fst kv) k) l).

(** All pairs given to a Command object by a history of calls, in order. *)
Definition given (h : list call) : list (string * string) :=
  flat_map (fun c => match c with CallAddOne k v => [(k, v)] | CallAddMany a => a end) h.
Definition field_names (l : list token) : list string :=
  flat_map (fun t => match t with Field n => [n] | Lit _ => [] end) l.

(** A substitution either succeeds or is fatal. *)
Definition to_fres (o : option string) : fres := match o with Some t => FOk t | None => FErr end.
