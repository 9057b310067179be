(** What the registration theorems talk about. *)
From Verif Require Import Prelude Model_Command Model_Reg.

(** [d] is a direct or transitive dependency of [t]. *)
Inductive before (g : edges) : string -> string -> Prop :=
| before_edge d t : In (d, t) g -> before g d t
| before_step d m t : In (d, m) g -> before g m t -> before g d t.

(** The registry a program ends up with, if it is not ended by a fatal error. *)
Definition registers (n : nat) (prog : list api) (r : reg) : Prop :=
  exists calls, run_apis n prog rs_init = RDone (RS (Some r) calls).

(** A finished execution of the graph by [w] workers. *)
Definition executes (w : nat) (r : reg) (log : list xev) : Prop :=
  exists s, xexec w (rg_built r) (rg_edges r) (x_init (rg_edges r)) log = Some s /\
    x_over w (rg_built r) (rg_edges r) s.

Definition starts (l : list xev) : list string :=
  flat_map (fun ev => match ev with XStart i => [i] | _ => [] end) l.
Definition finishes (l : list xev) : list string :=
  flat_map (fun ev => match ev with XFinish i _ => [i] | _ => [] end) l.

(** What a program asks for, given the conditions of its handles: builders (in
    the order in which their callbacks end), dependencies, tests, callbacks. *)
Fixpoint asked_builds (a : api) : list string :=
  match a with
  | AFunc h _ body => if enabled h then flat_map asked_builds body else []
  | ABuild h id _ body => if enabled h then flat_map asked_builds body ++ [id] else []
  | _ => []
  end.
Fixpoint asked_deps (a : api) : list (string * string) :=
  match a with
  | AFunc h _ body | ABuild h _ _ body => if enabled h then flat_map asked_deps body else []
  | ADep build _ target dep => if build then [(dep, target)] else []
  | _ => []
  end.
Fixpoint asked_tests (a : api) : list (string * (string * list (string * string))) :=
  match a with
  | AFunc h _ body | ABuild h _ _ body => if enabled h then flat_map asked_tests body else []
  | ATest build test target cmd args => if build then if test then [(target, (cmd, args))] else [] else []
  | _ => []
  end.
Fixpoint asked_calls (a : api) : list string :=
  match a with
  | AFunc h n body | ABuild h _ n body => if enabled h then n :: flat_map asked_calls body else []
  | _ => []
  end.
Fixpoint stays_up (a : api) : bool :=
  match a with
  | ADeinit => false
  | AFunc _ _ body | ABuild _ _ _ body => forallb stays_up body
  | _ => true
  end.
