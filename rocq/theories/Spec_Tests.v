(** What a user of Reg::Test expects to see. *)
From Verif Require Import Prelude Model_Command Model_Args Model_Reg Model_Tests.

(** The pieces that the process of test [id] wrote, to standard error if [err]. *)
Definition wrote (id : string) (err : bool) (evs : list vevent) : list string :=
  flat_map (fun ev => match ev with
                      | VTest (QWrite i e x) => if String.eqb i id && Bool.eqb e err then [x] else []
                      | _ => [] end) evs.
(** ... to the streams that are left to it, as they arrived. *)
Definition wrote_directly (o : test_output) (id : string) (evs : list vevent) : list shown :=
  flat_map (fun ev => match ev with
                      | VTest (QWrite i e x) =>
                          if String.eqb i id then
                            match o_type o, e with
                            | DefaultBehaviour, _ | PrintOnStderr, false | PrintOnStdout, true => [Direct e x]
                            | UserRedirect, false => match o_stdout o with None => [Direct e x] | Some _ => [] end
                            | UserRedirect, true => match o_stderr o with None => [Direct e x] | Some _ => [] end
                            | _, _ => []
                            end
                          else []
                      | _ => [] end) evs.
Definition text (pieces : list string) : string := fold_right String.append "" pieces.

(** The part of the console that is about test [id]. *)
Definition seen (id : string) (s : vstate) : list shown :=
  map snd (filter (fun x => String.eqb (fst x) id) (q_console (v_tests s))).
(** The processes that were started for it: command and directory. *)
Definition processes (id : string) (s : vstate) : list (string * option string) :=
  map snd (filter (fun x => String.eqb (fst x) id) (q_started (v_tests s))).

(** Messages of at least level Info, Debug are shown. *)
Definition info_shown (lv : log_level) : bool := match lv with Trace | Debug | Info => true | Warning | Critical => false end.
Definition debug_shown (lv : log_level) : bool := match lv with Trace | Debug => true | _ => false end.
Definition when (b : bool) (l : list string) : list shown := if b then map Line l else [].

(** Before the process writes anything. *)
Definition announced (lv : log_level) (id cmd : string) : list shown :=
  when (info_shown lv) ["[TestRunner]: Testing '" +++ id +++ "'"] ++ when (debug_shown lv) ["[system]: " +++ cmd].
(** What is logged after it has succeeded, if the output was [out] and [err]. *)
Definition logged (ty : out_type) (id out err : string) : list string :=
  match ty with
  | PrintOnStdout => ["[STDOUT: " +++ id +++ "]: " +++ out]
  | PrintOnStderr => ["[STDERR: " +++ id +++ "]: " +++ err]
  | PrintOnBoth => ["[STDOUT: " +++ id +++ "]: " +++ out; "[STDERR: " +++ id +++ "]: " +++ err]
  | DefaultBehaviour | UserRedirect => []
  end.
(** Is the stream kept by the test runner and printed at the end? *)
Definition is_kept (ty : out_type) (err : bool) : bool :=
  match ty with PrintOnBoth => true | PrintOnStdout => negb err | PrintOnStderr => err | DefaultBehaviour | UserRedirect => false end.

(** Does a stream of the test go to the user's vector [v]? *)
Definition goes_to (t : test) (err : bool) (v : nat) : Prop :=
  o_type (t_out t) = UserRedirect /\ (if err then o_stderr (t_out t) else o_stdout (t_out t)) = Some v.

(** How many tests were begun, how many are over. *)
Definition begun (evs : list vevent) : nat :=
  length (filter (fun ev => match ev with VTest (QStart _) => true | _ => false end) evs).
Definition over (evs : list vevent) : nat :=
  length (filter (fun ev => match ev with VTest (QExit _ _) => true | _ => false end) evs).
