(** The compilation database that should be written. *)
From Verif Require Import Prelude Model_Path Model_Json Spec_Json Model_CompileCommands.

Definition db_entry (directory command file : string) : json :=
  JObj [("directory", JStr directory); ("command", JStr command); ("file", JStr file)].
Definition db (build : string) (ts : list cc_target) : json :=
  JArr (flat_map (fun t => map (fun src => db_entry (to_path_string build) (cc_command t src) src) (cc_sources t)) ts).

(** No character that JSON wants escaped. *)
Fixpoint plain (s : string) : Prop :=
  match s with
  | EmptyString => True
  | String c r => (32 <= N_of_ascii c)%N /\ c <> """"%char /\ c <> "\"%char /\ plain r
  end.
Definition no_blank (s : string) : Prop := str_mem " "%char s = false.
(** Paths and commands that need no treatment. *)
Definition easy_path (p : string) : Prop :=
  no_blank (to_path_string p) /\ plain (to_path_string p) /\ valid_utf8 (to_path_string p).
Definition easy (build : string) (ts : list cc_target) : Prop :=
  easy_path build /\ forall t src, In t ts -> In src (cc_sources t) ->
    (plain src /\ valid_utf8 src) /\ plain (cc_command t src) /\ valid_utf8 (cc_command t src).
