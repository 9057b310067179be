(** Calls of Project, and what is expected of them. *)
From Verif Require Import Prelude Model_Targets.

Inductive project_call := ProjectInit (root build : string) | ProjectDeinit.
(** lib/env/src/env.cpp:22-42 *)
Definition do_project (p : project) (c : project_call) : project :=
  match c with ProjectInit r b => project_init r b | ProjectDeinit => project_deinit p end.
Definition after_project (calls : list project_call) : project := fold_left do_project calls project_none.

(** The directories given last, unless Deinit was called since. *)
Fixpoint last_init (calls : list project_call) : option (string * string) :=
  match calls with
  | [] => None
  | c :: r =>
      match last_init r, c with
      | Some d, _ => Some d
      | None, ProjectInit a b => if existsb (fun x => match x with ProjectDeinit => true | _ => false end) r then None else Some (a, b)
      | None, ProjectDeinit => None
      end
  end.
