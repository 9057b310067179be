(** The toolchain classes, their creation by ToolchainId and the callbacks that
    ask a compiler for its version and architecture. *)
From Verif Require Import Prelude Model_Path Model_Command Model_ToolchainConfig Model_Find Model_Storage Model_Api.

(** lib/toolchain/include/toolchain/common/toolchain_id.h:24-31. Values outside the
    enumeration are not modelled. *)
Inductive toolchain_id := Gcc | Msvc | Clang | MinGW | Custom | UndefinedId.

(** What an information callback sees: the result of running a command (None: it
    could not be run or its exit status is not 0; otherwise the pieces in which its
    standard output arrived, lib/env/src/execute.cpp:43-64) and the environment. *)
Record host := HOST { h_run : string -> option (list string); h_env : string -> option string }.

(** toolchains/src/toolchain_infos.cpp:41-50, 52-61. The callers' patterns are
    constants, so that Construct cannot fail (Proof_Toolchains.dump_text). *)
Definition dump_command (cpp flag : string) : fres :=
  construct (add_default_argument command_init ("compiler", cpp)) ("{compiler} " +++ flag) [].
Definition gcc_query (h : host) (cpp flag : string) : option string :=
  match dump_command cpp flag with
  | FOk cmd =>
      match h_run h cmd with
      | None => None
      | Some [] => None
      | Some (first :: _) => Some first
      end
  | FErr | FOther => None
  end.
(** toolchain_infos.cpp:63-78 GetGccToolchainInfo; the path is left empty. *)
Definition gcc_info (h : host) (e : exes) : option info :=
  match gcc_query h (x_cpp e) "-dumpversion", gcc_query h (x_cpp e) "-dumpmachine" with
  | Some v, Some a => Some (INFO "" v a)
  | _, _ => None
  end.
(** toolchain_infos.cpp:97-131 GetMsvcToolchainInfo *)
Definition msvc_info (h : host) (e : exes) : option info :=
  match h_env h "VSCMD_VER", h_env h "VSCMD_ARG_HOST_ARCH", h_env h "VSCMD_ARG_TGT_ARCH" with
  | Some v, Some ho, Some ta => Some (INFO "" v (ho +++ "_" +++ ta))
  | _, _, _ => None
  end.
(** toolchain_infos.cpp:135-143 GetErrorToolchainInfo *)
Definition error_info (h : host) (e : exes) : option info := None.

(** toolchain_infos.cpp:31-39 GetGccToolchainConfig, 87-95 GetMsvcToolchainConfig *)
Definition gcc_tconfig : tconfig :=
  TC ".o" ".h" ".gch" "-I" "-L" (tc_c tconfig_default) (tc_cpp tconfig_default) (tc_asm tconfig_default) (tc_header tconfig_default).
Definition msvc_tconfig : tconfig :=
  TC ".obj" ".h" ".pch" "/I" "/LIBPATH:" (tc_c tconfig_default) (tc_cpp tconfig_default) (tc_asm tconfig_default) (tc_header tconfig_default).

(** toolchain_infos.cpp:149-183 GlobalToolchainMetadata: every id of the
    enumeration has an entry, so Expect never fails. *)
Definition metadata (id : toolchain_id) : tconfig * (host -> exes -> option info) :=
  match id with
  | Gcc | MinGW | Clang => (gcc_tconfig, gcc_info)
  | Msvc => (msvc_tconfig, msvc_info)
  | Custom | UndefinedId => (tconfig_default, error_info)
  end.

(** lib/toolchain/include/toolchain/toolchain.h:34-100 Toolchain with its
    ToolchainVerify part (toolchain_verify.h:79); [k_info]: info_cb_. *)
Record toolchain := TCH {
  k_id : toolchain_id;
  k_name : string;
  k_exes : exes;
  k_config : tconfig;
  k_info : option (host -> exes -> option info);
  k_flags : tcflags }.
Definition no_flags : tcflags := TF [] [] [] [] [] [] [] [].

(** The derived classes. toolchains/include/toolchains/toolchain_gcc.h:37-44,
    toolchain_mingw.h:39-47, toolchain_msvc.h:37-44, toolchain_custom.h:27-33. *)
Inductive tc_class := CGcc | CMsvc | CMinGW | CCustom.
(** [typeid(T).name()] of the class (spelling immaterial). *)
Definition class_name (c : tc_class) : string :=
  match c with CGcc => "Toolchain_gcc" | CMsvc => "Toolchain_msvc" | CMinGW => "Toolchain_mingw" | CCustom => "Toolchain_custom" end.

Definition value_or {A} (o : option A) (d : A) : A := match o with Some x => x | None => d end.

(** The four Initialize functions (toolchain_gcc.cpp:26-34, toolchain_msvc.cpp:23-26,
    toolchain_aggregate.cpp:45-49), run at the end of the constructors: RefConfig()
    is assigned. *)
Definition initialize (id : toolchain_id) (t : toolchain) : toolchain :=
  TCH (k_id t) (k_name t) (k_exes t) (fst (metadata id)) (Some (snd (metadata id))) (k_flags t).
Definition construct_toolchain (id : toolchain_id) (name : string) (e : exes) (op_config : option tconfig) : toolchain :=
  initialize id (TCH id name e (value_or op_config tconfig_default) None no_flags).

(** toolchain_gcc.h:41-42, toolchain_mingw.h:44-45, toolchain_msvc.h:41-42 *)
Definition gnu_exes : exes := EXES "as" "gcc" "g++" "ar" "ld".
Definition msvc_exes : exes := EXES "cl" "cl" "cl" "lib" "link".

(** Storage (lib/env/include/env/storage.h:115-165, one global ScopedStorage) and
    the toolchains among the objects in it. *)
Record tstore := TST { o_storage : storage; o_toolchains : list (nat * toolchain) }.

(** toolchain_aggregate.cpp:31-39 AddIf: nullptr ([None]) if the name is taken. *)
Definition add_if (s : tstore) (c : tc_class) (name : string) (t : toolchain) : tstore * option nat :=
  if s_contains (o_storage s) name then (s, None)
  else
    let (st, obj) := s_add (o_storage s) name (class_name c) in
    (TST st (o_toolchains s ++ [(obj, t)]), Some obj).

(** toolchain_aggregate.cpp:51-82 Toolchain_generic::New; the object it returns a
    reference to. *)
Definition generic_new (s : tstore) (id : toolchain_id) (name : string) (op_e : option exes) (op_c : option tconfig)
  : tstore * outcome nat :=
  let done (r : tstore * option nat) :=
    match r with (s1, Some obj) => (s1, Ok obj) | (s1, None) => (s1, Fatal) end in
  match id with
  | Gcc => done (add_if s CGcc name (construct_toolchain Gcc name (value_or op_e gnu_exes) op_c))
  | Msvc => done (add_if s CMsvc name (construct_toolchain Msvc name (value_or op_e msvc_exes) op_c))
  | MinGW => done (add_if s CMinGW name (construct_toolchain MinGW name (value_or op_e gnu_exes) op_c))
  | Clang | Custom =>
      match op_e with
      | None => (s, Fatal)
      | Some e => done (add_if s CCustom name (construct_toolchain id name e op_c))
      end
  | UndefinedId => (s, Fatal)
  end.

(** lib/args/include/args/args.h:48-74 ArgToolchain (without its state flags) and
    ConstructToolchain; the conversions to optional always give a value. *)
Record arg_toolchain := AT { a_id : toolchain_id; a_name : string; a_exes : exes; a_config : tconfig }.
Definition arg_default : arg_toolchain := AT UndefinedId "" (EXES "" "" "" "" "") tconfig_default.
Definition construct_from_args (s : tstore) (a : arg_toolchain) : tstore * outcome nat :=
  generic_new s (a_id a) (a_name a) (Some (a_exes a)) (Some (a_config a)).

(** Other users of Storage (storage.h:39-60): objects of other types are added,
    everything is destroyed by Clear. *)
Inductive store_op :=
| ONew (id : toolchain_id) (name : string) (op_e : option exes) (op_c : option tconfig)
| OAdd (name ty : string)
| OClear.
(** None: the process has ended. *)
Definition store_step (s : tstore) (o : store_op) : option tstore :=
  match o with
  | ONew id name op_e op_c =>
      match generic_new s id name op_e op_c with (s1, Ok _) => Some s1 | (_, Fatal) => None end
  | OAdd name ty => Some (TST (fst (s_add (o_storage s) name ty)) (o_toolchains s))
  | OClear => Some (TST (s_clear (o_storage s)) (o_toolchains s))
  end.
Fixpoint store_run (s : tstore) (l : list store_op) : option tstore :=
  match l with
  | [] => Some s
  | o :: r => match store_step s o with Some s1 => store_run s1 r | None => None end
  end.
Definition store_empty : tstore := TST storage_empty [].

(** toolchain_verify.cpp:76-99 Verify of a toolchain object. *)
Definition verify_toolchain (w : world) (h : host) (t : toolchain) (c : find_config) : toolchain * outcome info :=
  let (e, r) := verify w (option_map (fun f => f h) (k_info t)) (k_exes t) c in
  (TCH (k_id t) (k_name t) e (k_config t) (k_info t) (k_flags t), r).
