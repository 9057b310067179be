(** When the stored state alone makes the next run start from scratch. *)
From Verif Require Import Prelude Model_Json Model_Schema Model_Command Model_ToolchainConfig Model_Target.

(** An option, or the list of files, that every compile command depends on is not
    the one recorded in the stored state [l].  With a PCH it is the PCH's options
    that count, which leave out the flags for assembly and for including the PCH. *)
Definition recorded_otherwise (l : tschema) (c : cfg) : Prop :=
  ts_preprocessor_flags l <> c_preprocessor c \/ ts_common_compile_flags l <> c_common c \/
  ts_c_compile_flags l <> c_c_flags c \/ ts_cpp_compile_flags l <> c_cpp_flags c \/
  ts_include_dirs l <> dirs (c_include_dirs c) \/ il_paths (ts_headers l) <> headers c \/
  (pchs c <> [] /\
   (ts_pch_compile_flags l <> c_pch_compile c \/ il_paths (ts_pchs l) <> pchs c \/ ts_pch_compiled l = false)) \/
  (pchs c = [] /\
   (ts_asm_compile_flags l <> c_asm_flags c \/ ts_pch_object_flags l <> c_pch_object c \/
    il_paths (ts_compile_deps l) <> compile_deps c)).
