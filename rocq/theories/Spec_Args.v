(** What a user expects of the command line. *)
From Verif Require Import Prelude Model_Path Model_ToolchainConfig Model_Find Model_Storage Model_Api Model_Toolchains Model_Gcc Model_Targets Model_Args.

(** The ids a user can name, and their numbers. *)
Definition id_name (id : toolchain_id) : string :=
  match id with Gcc => "gcc" | Msvc => "msvc" | MinGW => "mingw" | Clang => "clang" | Custom => "custom" | UndefinedId => "undefined" end.
Definition id_number (id : toolchain_id) : string :=
  match id with Gcc => "0" | Msvc => "1" | Clang => "2" | MinGW => "3" | Custom => "4" | UndefinedId => "5" end.
Definition capital (small big : ascii) : Prop :=
  exists n, n < 26 /\ small = ascii_of_nat (97 + n) /\ big = ascii_of_nat (65 + n).
(** [s] is [name] with some letters replaced by capitals. *)
Inductive any_case : string -> string -> Prop :=
| any_nil : any_case "" ""
| any_same c n s : any_case n s -> any_case (String c n) (String c s)
| any_big c d n s : capital c d -> any_case n s -> any_case (String c n) (String d s).

(** The value of an option: what was given, otherwise the default. *)
Definition or_default {A} (given : option A) (d : A) : A := match given with Some x => x | None => d end.

(** Calls between Init and Parse. *)
Definition is_add (c : args_call) : Prop := match c with CTool _ _ _ | CTarget _ _ _ => True | _ => False end.
Definition tool_cells (cs : list args_call) : list nat := flat_map (fun c => match c with CTool _ n _ => [n] | _ => [] end) cs.
Definition target_cells (cs : list args_call) : list nat := flat_map (fun c => match c with CTarget _ n _ => [n] | _ => [] end) cs.
Definition tool_names (cs : list args_call) : list string := flat_map (fun c => match c with CTool n _ _ => [n] | _ => [] end) cs.
Definition target_names (cs : list args_call) : list string := flat_map (fun c => match c with CTarget n _ _ => [n] | _ => [] end) cs.
(** One use of Args. *)
Definition session (adds : list args_call) (l : line) : list args_call := CInit :: adds ++ [CParse l].

(** A command line that CLI11 and the options accept. *)
Definition acceptable (adds : list args_call) (l : line) : Prop :=
  ln_refused l = false /\ ln_root l <> None /\ ln_build l <> None /\
  (forall s, ln_level l = Some s -> read_level s <> None) /\
  (forall n s, In n (tool_names adds) -> tl_id (ln_tools l n) = Some s -> read_id s <> None).

(** Samples. *)
Definition no_tool : tool_line := TL None None None None None None None None None.
Definition no_target : target_line := GL None None.
Definition tool_line1 : tool_line := TL (Some true) None (Some "GCC") (Some "gcc_10") None (Some "gcc-10") (Some "g++-10") None None.
Definition line1 : line :=
  LN false (Some true) (Some "Debug") (Some "") (Some "_build")
     (fun n => if String.eqb n "gcc" then tool_line1 else no_tool)
     (fun n => if String.eqb n "tool" then GL (Some "{compiler} -c {input}") None else no_target).
Definition line2 : line := LN false None None (Some "src") (Some "_b2") (fun _ => no_tool) (fun _ => no_target).
Definition tool1 : tool_var := TV true true (AT Gcc "gcc" (EXES "as" "gcc" "g++" "ar" "ld") msvc_tconfig).
Definition adds1 : list args_call := [CTool "gcc" 0 tool1; CTarget "tool" 0 target_var0; CTool "mingw" 1 tool_var0].
Definition on_args {A} (r : option args) (f : args -> A) : option A := option_map f r.
(** The level a user names. *)
Definition level_name (v : log_level) : string :=
  match v with Trace => "trace" | Debug => "debug" | Info => "info" | Warning => "warning" | Critical => "critical" end.
Definition level_number (v : log_level) : string :=
  match v with Trace => "0" | Debug => "1" | Info => "2" | Warning => "3" | Critical => "5" end.
(** The option [given] (a text) selects [v]; without it, [v] is the default. *)
Definition selects {A} (name number : A -> string) (given : option string) (d v : A) : Prop :=
  match given with None => v = d | Some s => any_case (name v) s \/ s = number v end.
Definition tool_exes (t : tool_line) (e : exes) : exes :=
  EXES (or_default (tl_asm t) (x_as e)) (or_default (tl_c t) (x_c e)) (or_default (tl_cpp t) (x_cpp e)) (or_default (tl_ar t) (x_ar e)) (or_default (tl_linker t) (x_link e)).
(** A command line has been parsed since the last Deinit. *)
Definition parsed_after (before : bool) (c : args_call) : bool :=
  match c with CParse _ => true | CDeinit => false | CInit | CTool _ _ _ | CTarget _ _ _ => before end.
