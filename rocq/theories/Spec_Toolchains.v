(** What a user expects of toolchains created by id. *)
From Verif Require Import Prelude Model_Path Model_ToolchainConfig Model_Find Model_Storage Model_Toolchains.

(** Which ids can be created; for which of them executables must be named. *)
Definition creatable (id : toolchain_id) (op_e : option exes) : Prop :=
  match id with
  | Gcc | Msvc | MinGW => True
  | Clang | Custom => op_e <> None
  | UndefinedId => False
  end.
(** The executables used if none are named. *)
Definition usual_tools (id : toolchain_id) : exes :=
  match id with Msvc => EXES "cl" "cl" "cl" "lib" "link" | _ => EXES "as" "gcc" "g++" "ar" "ld" end.
Definition tools (id : toolchain_id) (op_e : option exes) : exes :=
  match op_e with Some e => e | None => usual_tools id end.
(** File extensions and prefixes by id. *)
Definition usual_config (id : toolchain_id) : tconfig :=
  match id with
  | Msvc => TC ".obj" ".h" ".pch" "/I" "/LIBPATH:" [".c"] [".cpp"; ".cxx"; ".cc"] [".s"; ".S"; ".asm"] [".h"; ".hpp"]
  | _ => TC ".o" ".h" ".gch" "-I" "-L" [".c"] [".cpp"; ".cxx"; ".cc"] [".s"; ".S"; ".asm"] [".h"; ".hpp"]
  end.
(** The class under which Storage knows the toolchain. *)
Definition class_of_id (id : toolchain_id) : tc_class :=
  match id with Gcc => CGcc | Msvc => CMsvc | MinGW => CMinGW | _ => CCustom end.

(** The ids whose compilers are asked as gcc is. *)
Definition gnu_like (id : toolchain_id) : Prop := id = Gcc \/ id = MinGW \/ id = Clang.

(** The toolchain behind a reference. *)
Definition object (s : tstore) (obj : nat) (t : toolchain) : Prop :=
  In (obj, t) (o_toolchains s) /\ forall t', In (obj, t') (o_toolchains s) -> t' = t.

Definition is_clear (o : store_op) : bool := match o with OClear => true | _ => false end.

(** The text a command printed, from the pieces in which it arrived. *)
Definition printed (pieces : list string) : string := String.concat "" pieces.
(** Two hosts whose commands print the same and exit the same way. *)
Definition same_output (h1 h2 : host) : Prop :=
  h_env h1 = h_env h2 /\ forall cmd, option_map printed (h_run h1 cmd) = option_map printed (h_run h2 cmd).
