(** Args: what the command line and configuration files set, and the project it
    leads to. *)
From Verif Require Import Prelude Model_Path Model_ToolchainConfig Model_Find Model_Storage Model_Api Model_Toolchains Model_Gcc Model_Targets.

(** lib/env/include/env/logging.h:25-33 *)
Inductive log_level := Trace | Debug | Info | Warning | Critical.

(** CLI::ignore_case, for ASCII. *)
Definition lower_char (c : ascii) : ascii :=
  let n := nat_of_ascii c in if Nat.leb 65 n && Nat.leb n 90 then ascii_of_nat (n + 32) else c.
Fixpoint lower (s : string) : string :=
  match s with EmptyString => EmptyString | String c r => String (lower_char c) (lower r) end.
(** CLI::CheckedTransformer: a key of the map, in any case, or the number of one of
    its values. *)
Definition transformer {A} (keys numbers : list (string * A)) (s : string) : option A :=
  match assoc (lower s) keys with Some v => Some v | None => assoc s numbers end.
(** lib/args/src/args.cpp:75-81 kLogLevelMap *)
Definition read_level : string -> option log_level :=
  transformer [("trace", Trace); ("debug", Debug); ("info", Info); ("warning", Warning); ("critical", Critical)]
              [("0", Trace); ("1", Debug); ("2", Info); ("3", Warning); ("5", Critical)].
(** args.cpp:83-90 kToolchainIdMap *)
Definition read_id : string -> option toolchain_id :=
  transformer [("gcc", Gcc); ("msvc", Msvc); ("mingw", MinGW); ("clang", Clang); ("custom", Custom); ("undefined", UndefinedId)]
              [("0", Gcc); ("1", Msvc); ("2", Clang); ("3", MinGW); ("4", Custom); ("5", UndefinedId)].

(** What CLI11 collects from the arguments and the TOML files for the options that
    were added: at most one value each. [ln_refused]: it found something else it
    does not accept. *)
Record tool_line := TL {
  tl_build : option bool; tl_test : option bool;
  tl_id : option string; tl_name : option string;
  tl_asm : option string; tl_c : option string; tl_cpp : option string; tl_ar : option string; tl_linker : option string }.
Record target_line := GL { gl_compile : option string; gl_link : option string }.
Record line := LN {
  ln_refused : bool;
  ln_clean : option bool; ln_level : option string; ln_root : option string; ln_build : option string;
  ln_tools : string -> tool_line;
  ln_targets : string -> target_line }.

(** lib/args/include/args/args.h:38-42 ArgToolchainState, 49-74 ArgToolchain *)
Record tool_var := TV { v_build : bool; v_test : bool; v_tool : arg_toolchain }.
(** args.h:76-90 ArgTarget *)
Record target_var := GV { v_compile : string; v_link : string }.

(** args.h:168-173 Args::Internal: the subcommands with the variables (numbered)
    that receive their options. *)
Record internal := IN { i_tools : list (string * nat); i_targets : list (string * nat); i_parsed : bool }.
(** args.cpp:92-96 and 102: the static variables; the variables of the program. *)
Record args := AR {
  ar_internal : option internal;
  ar_clean : bool; ar_level : log_level; ar_root : string; ar_build : string;
  ar_tools : nat -> tool_var; ar_targets : nat -> target_var }.
Definition tool_var0 : tool_var := TV false false arg_default.
Definition target_var0 : target_var := GV "" "".
Definition args_start : args := AR None false Info "" "_internal" (fun _ => tool_var0) (fun _ => target_var0).

Definition set_tool (a : args) (c : nat) (v : tool_var) : args :=
  AR (ar_internal a) (ar_clean a) (ar_level a) (ar_root a) (ar_build a) (fun n => if Nat.eqb n c then v else ar_tools a n) (ar_targets a).
Definition set_target (a : args) (c : nat) (v : target_var) : args :=
  AR (ar_internal a) (ar_clean a) (ar_level a) (ar_root a) (ar_build a) (ar_tools a) (fun n => if Nat.eqb n c then v else ar_targets a n).
Definition set_internal (a : args) (i : option internal) : args :=
  AR i (ar_clean a) (ar_level a) (ar_root a) (ar_build a) (ar_tools a) (ar_targets a).

Definition pick {A} (o : option A) (d : A) : A := match o with Some x => x | None => d end.

(** Parsing assigns the variables of the options that were given. *)
Definition parse_tool (t : tool_line) (v : tool_var) : option tool_var :=
  let id := match tl_id t with None => Some (a_id (v_tool v)) | Some s => read_id s end in
  match id with
  | None => None
  | Some id =>
      let e := a_exes (v_tool v) in
      Some (TV (pick (tl_build t) (v_build v)) (pick (tl_test t) (v_test v))
              (AT id (pick (tl_name t) (a_name (v_tool v)))
                  (EXES (pick (tl_asm t) (x_as e)) (pick (tl_c t) (x_c e)) (pick (tl_cpp t) (x_cpp e)) (pick (tl_ar t) (x_ar e)) (pick (tl_linker t) (x_link e)))
                  (a_config (v_tool v))))
  end.
Fixpoint parse_tools (l : line) (ts : list (string * nat)) (a : args) : option args :=
  match ts with
  | [] => Some a
  | (name, c) :: r =>
      match parse_tool (ln_tools l name) (ar_tools a c) with
      | Some v => parse_tools l r (set_tool a c v)
      | None => None
      end
  end.
Fixpoint parse_targets (l : line) (ts : list (string * nat)) (a : args) : args :=
  match ts with
  | [] => a
  | (name, c) :: r =>
      let t := ln_targets l name in
      parse_targets l r (set_target a c (GV (pick (gl_compile t) (v_compile (ar_targets a c))) (pick (gl_link t) (v_link (ar_targets a c)))))
  end.
(** args.cpp:133-152 RootArgs (--root_dir and --build_dir are required) and
    src/parse.cpp:21-28 Parse: a ParseError ends the program. *)
Definition parse (l : line) (i : internal) (a : args) : option args :=
  if ln_refused l then None
  else
    match ln_root l, ln_build l, (match ln_level l with None => Some (ar_level a) | Some s => read_level s end) with
    | Some root, Some build, Some level =>
        match parse_tools l (i_tools i) a with
        | None => None
        | Some a1 =>
            let a2 := parse_targets l (i_targets i) a1 in
            Some (AR (Some (IN (i_tools i) (i_targets i) true)) (pick (ln_clean l) (ar_clean a)) level root build (ar_tools a2) (ar_targets a2))
        end
    | _, _, _ => None
    end.

Inductive args_call :=
| CInit | CDeinit
| CTool (name : string) (c : nat) (initial : tool_var)
| CTarget (name : string) (c : nat) (initial : target_var)
| CParse (l : line).

(** Names of subcommands are taken to be ones CLI11 accepts (no leading dash etc.).
    args.cpp:104-118 Init, Deinit; 169-198 AddToolchain and 206-218 AddTarget:
    [default_val] assigns the variable. None: the program has ended (a name that
    is taken is CLI::OptionAlreadyAdded). *)
Definition args_step (a : args) (c : args_call) : option args :=
  match c with
  | CInit => match ar_internal a with Some _ => Some a | None => Some (set_internal a (Some (IN [] [] false))) end
  | CDeinit => Some (set_internal a None)
  | CTool name c v =>
      match ar_internal a with
      | None => None
      | Some i =>
          if mem_str name (map fst (i_tools i)) then None
          else
            let old := ar_tools a c in
            Some (set_tool (set_internal a (Some (IN (i_tools i ++ [(name, c)]) (i_targets i) (i_parsed i)))) c
                   (TV (v_build old) (v_test old) (AT (a_id (v_tool v)) (a_name (v_tool v)) (a_exes (v_tool v)) (a_config (v_tool old)))))
      end
  | CTarget name c v =>
      match ar_internal a with
      | None => None
      | Some i =>
          if mem_str name (map fst (i_targets i)) then None
          else Some (set_target (set_internal a (Some (IN (i_tools i) (i_targets i ++ [(name, c)]) (i_parsed i)))) c v)
      end
  | CParse l => match ar_internal a with None => None | Some i => parse l i a end
  end.
Fixpoint args_run (a : args) (cs : list args_call) : option args :=
  match cs with
  | [] => Some a
  | c :: r => match args_step a c with Some a1 => args_run a1 r | None => None end
  end.

(** args.cpp:120-131 *)
Definition is_parsed (a : args) : bool := match ar_internal a with None => false | Some i => i_parsed i end.

(** args.h:79-84 GetTargetConfig *)
Definition arg_target_config (v : target_var) : target_config :=
  TConf "" gcc_pch_command (v_compile v) (v_link v).

(** lib/args/src/register.cpp:71-95 SystemInit, Reg::Init: [done]: the instance
    exists. The log level and atexit are left out. *)
Definition reg_init (done : bool) (cwd : string) (a : args) (p : project) : outcome project :=
  if done then Ok p
  else if is_parsed a then Ok (project_init (path_div cwd (ar_root a)) (path_div cwd (ar_build a)))
  else Fatal.
