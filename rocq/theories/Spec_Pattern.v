(** What the patterns added to a generator stand for. *)
From Verif Require Import Prelude Model_Command Spec_Command Model_Gen.

(** Patterns written as tokens, as given to AddPattern. *)
Definition written (l : list (string * list token)) : list (string * string) :=
  map (fun x => (fst x, render (snd x))) l.

(** Naming the text [v] [k]: a name that already stands for a text keeps it. *)
Definition naming (val : string -> option string) (k v : string) : string -> option string :=
  fun x => match val x with
           | Some w => Some w
           | None => if String.eqb x k then Some v else None
           end.

(** The names after a sequence of additions to names standing for [val]: each
    pattern is expanded with the names known before it. [None]: a pattern mentions
    a name not known before it. *)
Inductive names_after (val : string -> option string) : list (string * list token) -> option (string -> option string) -> Prop :=
| after_none : names_after val [] (Some val)
| after_next k l r v res :
    expand val l = Some v -> names_after (naming val k v) r res -> names_after val ((k, l) :: r) res
| after_unknown k l r : expand val l = None -> names_after val ((k, l) :: r) None.

(** The names of a generator. *)
Definition names_of (o : gobj) (k : string) : option string := first_value k (go_args o).

(** No pattern of [l] mentions a name that only [l] itself defines. *)
Definition self_contained (val : string -> option string) (l : list (string * list token)) : Prop :=
  forall k p n, In (k, p) l -> In n (field_names p) -> val n = None -> ~ In n (map fst l).
