(** File extensions, independently of the code. *)
From Verif Require Import Prelude Model_Path Spec_Find.

(** The extension starts at the last dot; a leading dot does not start one. *)
Definition has_ext (f x : string) : Prop :=
  exists s r, s <> "" /\ f = s +++ "." +++ r /\ x = "." +++ r /\ no_dot r.
Definition file_has_ext (p x : string) : Prop := has_ext (filename p) x.
(** Paths that name a file. *)
Definition proper (p : string) : Prop := filename p <> "." /\ filename p <> "..".
