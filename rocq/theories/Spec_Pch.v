(** How a preprocessor reads the generated header: line by line, a directive is
    [#include], a blank, a quotation mark and everything up to the next one. *)
From Verif Require Import Prelude.

Definition line_feed : ascii := "010"%char.
Definition quotation : ascii := "034"%char.
Fixpoint lines (s : string) : list string :=
  match s with
  | EmptyString => [""]
  | String c r =>
      if Ascii.eqb c line_feed then "" :: lines r
      else match lines r with l :: m => String c l :: m | [] => [String c ""] end
  end.
Fixpoint upto_quotation (s : string) : option string :=
  match s with
  | EmptyString => None
  | String c r => if Ascii.eqb c quotation then Some "" else option_map (String c) (upto_quotation r)
  end.
Fixpoint after (p s : string) : option string :=
  match p, s with
  | EmptyString, _ => Some s
  | String a p', String b s' => if Ascii.eqb a b then after p' s' else None
  | _, _ => None
  end.
Definition directive (line : string) : list string :=
  match after ("#include " +++ String quotation "") line with
  | Some r => match upto_quotation r with Some f => [f] | None => [] end
  | None => []
  end.
Definition included (text : string) : list string := flat_map directive (lines text).

Fixpoint has (c : ascii) (s : string) : bool :=
  match s with EmptyString => false | String a r => Ascii.eqb a c || has c r end.

(** All the directives of a text: the lines that start with a hash. *)
Definition directives (text : string) : list string :=
  filter (fun l => match l with String c _ => Ascii.eqb c "#"%char | EmptyString => false end) (lines text).
(** The line that includes [f], as the library ends it (with a carriage return). *)
Definition include_line (f : string) : string :=
  "#include " +++ String quotation (f +++ String quotation (String "013"%char "")).
