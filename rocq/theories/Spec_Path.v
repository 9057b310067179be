(** What the path theorems talk about, independently of the model. *)
From Verif Require Import Prelude.

(** The file names of a path: its non-empty '/'-separated pieces. *)
Definition names (s : string) : list string :=
  filter (fun x => negb (String.eqb x "")) (pieces "/"%char s).

Definition absolute (s : string) : Prop := exists r, s = String "/"%char r.

(** Where a path leads, starting from directory [cwd] (innermost name first),
    when directory entries are real directories (no symbolic links). *)
Definition walk1 (dir : list string) (n : string) : list string :=
  if String.eqb n "." then dir
  else if String.eqb n ".." then tl dir
  else n :: dir.
Definition walk (dir : list string) (l : list string) : list string := fold_left walk1 l dir.
Definition leads_to (cwd : list string) (s : string) : list string :=
  match s with
  | String "/"%char _ => walk [] (names s)
  | _ => walk cwd (names s)
  end.

(** Canonical spelling: empty, ".", or no empty piece between separators, no
    "." name, and ".." only as a leading run of a relative path. *)
Definition no_double_slash (s : string) : Prop :=
  forall a b, s <> a +++ "//" +++ b.
Definition canonical (s : string) : Prop :=
  s = "" \/ s = "." \/
  (no_double_slash s /\ ~ In "." (names s) /\
   exists ups rest, names s = ups ++ rest /\
     Forall (fun n => n = "..") ups /\ ~ In ".." rest /\
     (absolute s -> ups = [])).

(** [s] names the file at relative location [l] (outermost name first) under
    directory [root]. *)
Definition under (root : string) (l : list string) (s : string) : Prop :=
  l <> [] /\ names s = names root ++ l /\ (absolute s <-> absolute root) /\
  (forall p, s <> p +++ "/").

(** An absolute path with canonical spelling that does not end in '/' unless it
    is the root directory. *)
Definition abs_canonical (s : string) : Prop :=
  exists l, s = "/" +++ join "/" l /\
    Forall (fun n => n <> "" /\ n <> "." /\ n <> ".." /\ str_mem "/"%char n = false) l.

(** The directory part of a path, as names. *)
Definition dir_names (s : string) : list string := removelast (names s).

(** The text [s] contains "..". *)
Definition contains_dotdot (s : string) : Prop := exists a b, s = a +++ ".." +++ b.
