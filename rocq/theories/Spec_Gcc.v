(** Which arguments the commands of a gcc target should have. *)
From Verif Require Import Prelude Model_Path Model_ToolchainConfig Model_Target.

(** Compiler and flags by language of the file. *)
Definition compiler_for (e : tenv) (x : file_ext) : string :=
  match x with ExtAsm => te_asm e | ExtC => te_cc e | ExtCpp => te_cxx e | _ => "" end.
Definition flags_for (c : cfg) (x : file_ext) : list string :=
  match x with ExtAsm => c_asm_flags c | ExtC => c_c_flags c | ExtCpp => c_cpp_flags c | _ => [] end.
(** Flags that apply only if there are precompiled headers. *)
Definition with_pch_only (c : cfg) (l : list string) : list string := match c_pchs c with [] => [] | _ => l end.
(** [-I] and [-L] arguments. *)
Definition include_args (e : tenv) (c : cfg) : list string :=
  map (fun d => tc_prefix_include (te_tc e) +++ to_path_string d) (c_include_dirs c).
Definition lib_dir_args (e : tenv) (c : cfg) : list string :=
  map (fun d => tc_prefix_lib (te_tc e) +++ to_path_string d) (c_lib_dirs c).
(** Language of the precompiled header: C++ if any source is. *)
Definition pch_language (e : tenv) (c : cfg) : file_ext :=
  if existsb (fun s => match get_file_ext (te_tc e) (to_path_string s) with ExtCpp => true | _ => false end) (c_sources c)
  then ExtCpp else ExtC.
