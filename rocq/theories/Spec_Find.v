(** What the searches are about, independently of the code. *)
From Verif Require Import Prelude Model_Path Model_Util Model_Find.

(** A file called [f] is called [e] if its extension is ignored. The extension
    starts at the last dot, unless that dot is the first character. *)
Definition no_dot (s : string) : Prop := str_mem "."%char s = false.
Definition called (f e : string) : Prop :=
  (f = e /\ (no_dot f \/ exists r, f = "." +++ r /\ no_dot r)) \/
  (e <> "" /\ exists x, f = e +++ "." +++ x /\ no_dot x).

Definition names (e : exes) : list string := [x_as e; x_c e; x_cpp e; x_ar e; x_link e].

(** [d] is a readable directory with a regular file for each executable. *)
Definition complete (w : world) (e : exes) (d : string) : Prop :=
  exists entries, w_dir w d = DEntries entries /\
    forall n, In n (names e) -> exists f, In (f, true) entries /\ called f n.

(** The directories to be searched, in order; None if a variable is not set. *)
Fixpoint env_dirs (w : world) (vars : list string) : option (list string) :=
  match vars with
  | [] => Some []
  | v :: r =>
      match w_env w v, env_dirs w r with
      | Some s, Some l => Some (split s ":"%char ++ l)
      | _, _ => None
      end
  end.
Definition dirs_to_search (w : world) (c : find_config) : option (list string) :=
  match env_dirs w (fc_env_vars c) with Some l => Some (fc_paths c ++ l) | None => None end.

(** [l] lists the members of [all] that satisfy [P], in the same order and as
    often. *)
Inductive those {A} (P : A -> Prop) : list A -> list A -> Prop :=
| those_nil : those P [] []
| those_take x l all : P x -> those P l all -> those P (x :: l) (x :: all)
| those_skip x l all : ~ P x -> those P l all -> those P l (x :: all).

(** A file system: entries have proper names, the empty path does not exist. *)
Definition posix (w : world) : Prop :=
  w_dir w "" = DAbsent /\
  forall d entries f r, w_dir w d = DEntries entries -> In (f, r) entries ->
    f <> "" /\ f <> "." /\ f <> ".." /\ str_mem "/"%char f = false.

(** The paths found by looking through the variables: an entry [f] of a readable
    directory [d] listed in a variable, with [m f]. *)
Definition var_dirs (w : world) (v : string) : list string :=
  match w_env w v with Some s => split s ":"%char | None => [] end.
Definition entries_of (w : world) (d : string) : list (string * string) :=
  match w_dir w d with DEntries l => map (fun en => (d, fst en)) l | _ => [] end.
Definition found (w : world) (rx : string -> string -> bool) (f : finder) : list string :=
  map (fun p => path_div (fst p) (snd p))
      (filter (fun p => rx (f_regex f) (snd p)) (flat_map (entries_of w) (flat_map (var_dirs w) (f_env_vars f)))).

(** Repeated Search calls, the world changing in between. *)
Fixpoint searches (rx : string -> string -> bool) (f : finder) (ws : list world) : finder :=
  match ws with [] => f | w :: r => searches rx (fst (search w rx f)) r end.
