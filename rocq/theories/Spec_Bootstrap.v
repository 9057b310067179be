(** What the theorems about the bootstrap program talk about. *)
From Verif Require Import Prelude Model_Path Model_Json Model_Schema Model_Command Model_ToolchainConfig Model_Target Spec_Target
  Model_Find Model_Sync Spec_Sync Model_Api Spec_Api Model_Toolchains Model_Targets Spec_Targets Model_Reg Spec_Reg Model_Bootstrap
  Model_Project Spec_Project.

(** ** The files of the library *)

(** Below <root>/buildcc. *)
Definition library_source_dirs : list string :=
  [ "lib/env/src"; "schema/src"; "lib/toolchain/src/api"; "lib/toolchain/src/common"; "lib/toolchain/src/toolchain";
    "lib/target/src/common"; "lib/target/src/custom_generator"; "lib/target/src/generator"; "lib/target/src/api";
    "lib/target/src/target_info"; "lib/target/src/target"; "lib/target/src/target/friend"; "lib/args/src"; "toolchains/src"; "plugins/src" ].
Definition library_header_dirs : list string :=
  [ ""; "lib/env/include/env"; "schema/include/schema"; "schema/include/schema/interface"; "lib/toolchain/include/toolchain";
    "lib/toolchain/include/toolchain/api"; "lib/toolchain/include/toolchain/common"; "lib/target/include/target";
    "lib/target/include/target/api"; "lib/target/include/target/common"; "lib/target/include/target/friend";
    "lib/target/include/target/interface"; "lib/args/include/args"; "toolchains/include/toolchains"; "targets/include/targets";
    "plugins/include/plugins" ].
(** Below <root>/third_party. *)
Definition third_party_header_dirs : list (string * string) :=
  map (pair "json") [ "include/nlohmann"; "include/nlohmann/thirdparty/hedley"; "include/nlohmann/detail";
    "include/nlohmann/detail/conversions"; "include/nlohmann/detail/input"; "include/nlohmann/detail/iterators";
    "include/nlohmann/detail/meta"; "include/nlohmann/detail/meta/call_std"; "include/nlohmann/detail/output" ] ++
  [ ("fmt", "include/fmt") ] ++
  map (pair "spdlog") [ "include/spdlog"; "include/spdlog/cfg"; "include/spdlog/details"; "include/spdlog/fmt"; "include/spdlog/sinks" ] ++
  [ ("CLI11", "include/CLI") ] ++
  map (pair "taskflow") [ "taskflow"; "taskflow/algorithm"; "taskflow/core"; "taskflow/cuda"; "taskflow/cuda/algorithm";
    "taskflow/dsl"; "taskflow/sycl"; "taskflow/sycl/algorithm"; "taskflow/utility" ].

(** [f] is the file [n] of directory [d] of which [valid] is true. *)
Definition file_of (ls : listing) (valid : string -> bool) (d f : string) : Prop :=
  exists l n, ls d = Some l /\ In n l /\ valid (path_div d n) = true /\ f = to_path_string (path_div d n).
Definition library_source (tc : toolchain) (root : string) (ls : listing) (f : string) : Prop :=
  exists d, In d library_source_dirs /\ file_of ls (is_valid_source (k_config tc)) (path_div (path_div root "buildcc") d) f.
Definition library_header (tc : toolchain) (root : string) (ls : listing) (f : string) : Prop :=
  (exists d, In d library_header_dirs /\ file_of ls (is_valid_header (k_config tc)) (path_div (path_div root "buildcc") d) f) \/
  (exists lib d, In (lib, d) third_party_header_dirs /\
     file_of ls (is_valid_header (k_config tc)) (path_div (path_div (path_div root "third_party") lib) d) f) \/
  f = to_path_string (path_div (path_div (path_div root "third_party") "tiny-process-library") "process.hpp").

(** The directory of the public headers of custom generators. *)
Definition generator_header_dir (root : string) : string :=
  path_div (path_div root "buildcc") "lib/target/include/target/custom_generator".

(** What directories contain: names, each once. *)
Definition proper (ls : listing) : Prop := forall d l, ls d = Some l -> Forall simple l /\ NoDup l.

(** ** Histories of a program

    [regs]: the registries the program may end up with; [options]: the options with
    which it may build its target [i]. Otherwise everything may happen that may
    happen to the single targets (Spec_Project.v). Nothing is assumed about
    dependencies. *)
Definition prog_admissible (rg : regime) (regs : reg -> Prop) (options : string -> cfg -> Prop) (p : Model_Project.project) (h : phist) (ev : pevent) : Prop :=
  match ev with
  | PRun _ r => regs r
  | PBuild i c _ => options i c /\ padmissible rg p h ev
  | _ => padmissible rg p h ev
  end.
Inductive prog_history (rg : regime) (regs : reg -> Prop) (options : string -> cfg -> Prop) (l : list (string * (tenv * disk)))
  : list pevent -> phist -> Model_Project.project -> Prop :=
| prog_history_nil : prog_history rg regs options l []
    (fun id => match assoc id l with Some (_, d) => hist0 d | None => HS (fun _ => 0%N) None None false end) (pinit l [])
| prog_history_snoc evs h p ev p' :
    prog_history rg regs options l evs h p -> prog_admissible rg regs options p h ev -> pstep p ev = Some p' ->
    prog_history rg regs options l (evs ++ [ev]) (ptrack p h ev) p'.

(** The targets at first: nothing linked, no state files, whatever else lies around. *)
Definition nothing_linked (ts : list target) (l : list (string * (tenv * disk))) : Prop :=
  exists (d : string -> disk) mt0, l = map (fun t => (g_unique_id t, (g_env t, d (g_unique_id t)))) ts /\
    forall t, In t ts -> d_mt (d (g_unique_id t)) = mt0 /\ mt0 (out_file (g_env t)) = None /\ d_tgt (d (g_unique_id t)) = None.

(** The bootstrap program on any contents of the directories; these may be
    different every time it runs. *)
Definition bootstrap_options (p : Model_Targets.project) (tc : toolchain) (h : host) (i : string) (c : cfg) : Prop :=
  exists ls ts t, proper ls /\ bootstrap_targets p tc h ls = Ok ts /\ In t ts /\ g_unique_id t = i /\ c = cfg_of (g_user t).
Definition bootstrap_registry (tc : toolchain) (r : reg) : Prop :=
  exists n clean build test,
    registers n (bootstrap_prog clean build test ("[" +++ k_name tc +++ "] libtpl") ("[" +++ k_name tc +++ "] libbuildcc")
                   ("[" +++ k_name tc +++ "] buildcc_hybrid_simple_example")) r.
(** Which target is linked with which. *)
Definition linked_with (tc : toolchain) (id b : string) : Prop :=
  (id = "[" +++ k_name tc +++ "] libbuildcc" /\ b = "[" +++ k_name tc +++ "] libtpl") \/
  (id = "[" +++ k_name tc +++ "] buildcc_hybrid_simple_example" /\
   (b = "[" +++ k_name tc +++ "] libbuildcc" \/ b = "[" +++ k_name tc +++ "] libtpl")).
(** A header of custom generators is changed. *)
Definition edits_generator_header (tc : toolchain) (root : string) (ev : pevent) : Prop :=
  exists n t, ev = PEdit (to_path_string (path_div (generator_header_dir root) n)) t /\ simple n /\
    is_valid_header (k_config tc) (path_div (generator_header_dir root) n) = true.

(** ** The options of the targets *)

(** Flags of both libraries. *)
Definition package_flags (id : toolchain_id) (x : sync_option) : list string :=
  match x, id with
  | CppCompileFlags, (Gcc | MinGW) => [ "-std=c++17"; "-Os"; "-Wall"; "-Wextra"; "-Werror" ]
  | CppCompileFlags, Msvc => [ "/std:c++17"; "/Ot"; "/W4"; "/WX" ]
  | PreprocessorFlags, Msvc => [ "/D_CRT_SECURE_NO_WARNINGS" ]
  | _, _ => []
  end.
(** Flags and libraries of libbuildcc that depend on the operating system. *)
Definition host_options (h : host) (id : toolchain_id) (x : sync_option) : list string :=
  (if ho_win h then
     match x, id with
     | PreprocessorFlags, MinGW => [ "-DFMT_HEADER_ONLY=1"; "-DSPDLOG_FMT_EXTERNAL" ]
     | LinkFlags, MinGW => [ "-Wl,--allow-multiple-definition" ]
     | PreprocessorFlags, Msvc => [ "/DFMT_HEADER_ONLY=1"; "/DSPDLOG_FMT_EXTERNAL" ]
     | _, _ => []
     end else []) ++
  (if ho_nix h then
     match x, id with
     | PreprocessorFlags, Gcc => [ "-DFMT_HEADER_ONLY=1"; "-DSPDLOG_FMT_EXTERNAL" ]
     | ExternalLibDeps, Gcc => [ "-lpthread" ]
     | _, _ => []
     end else []).
(** Include directories of libbuildcc, below <root>. *)
Definition library_include_dirs (root : string) : list string :=
  map (path_div (path_div root "buildcc"))
    [ ""; "lib/env/include"; "schema/include"; "lib/toolchain/include"; "lib/target/include"; "lib/args/include"; "toolchains/include";
      "targets/include"; "plugins/include" ] ++
  map (fun d => path_div (path_div (path_div root "third_party") (fst d)) (snd d))
    [ ("json", "include"); ("fmt", "include"); ("spdlog", "include"); ("CLI11", "include"); ("taskflow", ""); ("tiny-process-library", "") ].
(** libtpl: one source for all systems, one for each family of them. *)
Definition tpl_files (root : string) (h : host) (x : sync_option) : list (string * option string) :=
  let dir := path_div (path_div root "third_party") "tiny-process-library" in
  match x with
  | SourceFiles => map (fun n => file_entry (path_div dir n))
      ("process.cpp" :: (if ho_win h then [ "process_win.cpp" ] else []) ++ (if ho_nix h then [ "process_unix.cpp" ] else []))
  | HeaderFiles => [ file_entry (path_div dir "process.hpp") ]
  | IncludeDirs => [ dir_entry (path_div dir "") ]
  | _ => []
  end.
(** What the example takes over from libbuildcc. *)
Definition taken_over (x : sync_option) : bool :=
  match x with
  | PreprocessorFlags | CppCompileFlags | LinkFlags | HeaderFiles | IncludeDirs | LibDeps | ExternalLibDeps => true
  | _ => false
  end.
Definition output_entry (t : target) : string * option string :=
  file_entry (target_output_path (te_build (g_env t)) (te_name (g_env t)) (te_ext (g_env t))).
(** The callbacks that describe the two libraries: each is described after the
    libraries it takes options from and after it got the global flags. *)
Definition library_callbacks : list string :=
  [ "nlohmann_json_ho_cb"; "cli11_ho_cb"; "fmt_ho_cb"; "spdlog_ho_cb"; "taskflow_ho_cb";
    "global_flags_cb"; "tpl_cb"; "global_flags_cb"; "buildcc_cb" ].
