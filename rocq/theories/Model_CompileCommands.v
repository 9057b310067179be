(** plugins/src/clang_compile_commands.cpp *)
From Verif Require Import Prelude Model_Path Model_Json.

(** What Generate asks of a target: IsBuilt(), GetSourceFiles() and, for a
    source, GetCompileCommand (lib/target/src/api/target_getter.cpp:79-83). *)
Record cc_target := CCT { cc_built : bool; cc_sources : list string; cc_command : string -> string }.

(** clang_compile_commands.cpp:30-36, 72-74: the format filled in. *)
Definition cc_entry (directory command file : string) : string :=
  "{" +++ nl +++
  "  ""directory"": """ +++ directory +++ """," +++ nl +++
  "  ""command"": """ +++ command +++ """," +++ nl +++
  "  ""file"": """ +++ file +++ """" +++ nl +++ "}".

(** clang_compile_commands.cpp:61-77; the directory is a fs::path, which fmt prints
    with path_as_display_string (schema/path.h:253-259), a source a std::string. *)
Definition cc_entries (build : string) (ts : list cc_target) : list string :=
  flat_map (fun t => map (fun src => cc_entry (to_display_string build) (cc_command t src) src) (cc_sources t)) ts.
(** clang_compile_commands.cpp:79-80 *)
Definition cc_text (build : string) (ts : list cc_target) : string :=
  "[" +++ nl +++ join ("," +++ nl) (cc_entries build ts) +++ nl +++ "]".

(** clang_compile_commands.cpp:49-91 Generate: the file left alone, written with
    a text, or fatal if it cannot be written ([saves]: does save_file succeed). *)
Inductive cc_result := CCKeep | CCWrite (text : string) | CCFatal.
Definition cc_generate (build : string) (ts : list cc_target) (saves : bool) : cc_result :=
  if existsb cc_built ts
  then if saves then CCWrite (cc_text build ts) else CCFatal
  else CCKeep.
