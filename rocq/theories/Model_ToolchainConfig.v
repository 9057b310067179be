(** ToolchainConfig: file classification. *)
From Verif Require Import Prelude Model_Path.

(** lib/toolchain/include/toolchain/common/toolchain_config.h:86-96; the
    unordered_sets of extensions are lists used through membership only. *)
Record tconfig := TC {
  tc_obj_ext : string;
  tc_pch_header_ext : string;
  tc_pch_compile_ext : string;
  tc_prefix_include : string;
  tc_prefix_lib : string;
  tc_c : list string;
  tc_cpp : list string;
  tc_asm : list string;
  tc_header : list string }.

(** toolchain_config.h:86-96, the default member values. *)
Definition tconfig_default : tconfig :=
  TC ".o" ".h" ".gch" "-I" "-L" [".c"] [".cpp"; ".cxx"; ".cc"] [".s"; ".S"; ".asm"] [".h"; ".hpp"].

(** lib/toolchain/include/toolchain/common/file_ext.h [FileExt] *)
Inductive file_ext := ExtAsm | ExtC | ExtCpp | ExtHeader | ExtInvalid.

(** [path::extension] of a whole path: that of its file name. *)
Definition path_extension (p : string) : string := extension_of (filename p).

(** lib/toolchain/src/common/toolchain_config.cpp:27-46 [GetFileExt];
    [has_extension] is a non-empty [extension]. *)
Definition get_file_ext (t : tconfig) (p : string) : file_ext :=
  let ext := path_extension p in
  if String.eqb ext "" then ExtInvalid
  else if mem_str ext (tc_c t) then ExtC
  else if mem_str ext (tc_cpp t) then ExtCpp
  else if mem_str ext (tc_asm t) then ExtAsm
  else if mem_str ext (tc_header t) then ExtHeader
  else ExtInvalid.

(** toolchain_config.cpp:48-61 [IsValidSource] *)
Definition is_valid_source (t : tconfig) (p : string) : bool :=
  let ext := path_extension p in
  if String.eqb ext "" then false
  else mem_str ext (tc_c t) || mem_str ext (tc_cpp t) || mem_str ext (tc_asm t).

(** toolchain_config.cpp:63-67 [ExpectsValidSource] *)
Definition expects_valid_source (t : tconfig) (p : string) : outcome unit :=
  if is_valid_source t p then Ok tt else Fatal.

(** toolchain_config.cpp:69-80 [IsValidHeader] *)
Definition is_valid_header (t : tconfig) (p : string) : bool :=
  let ext := path_extension p in
  if String.eqb ext "" then false else mem_str ext (tc_header t).

(** toolchain_config.cpp:82-86 [ExpectsValidHeader] *)
Definition expects_valid_header (t : tconfig) (p : string) : outcome unit :=
  if is_valid_header t p then Ok tt else Fatal.
