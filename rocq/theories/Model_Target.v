(** One build target: Target::Build, its three tasks and the end task, as a
    labelled transition system over the disk and the process' memory.

    Simplifications, all in one place:
    - a command reads all its input files at one instant, and each of the
      Pre*/hash steps reads all last-write times at one instant;
    - the outputs of the three stages are different files, and commands of this
      target do not change tracked inputs (if something does, it is an [EvEdit]);
    - the callbacks FlagChanged, DirChanged, ... are test hooks and do nothing
      (lib/target/src/target/recheck_states.cpp:23-45). *)
From Verif Require Import Prelude Model_Path Model_Json Model_Schema Model_Command Model_ToolchainConfig.

(** ** Configuration *)

(** What stays the same over the runs considered: directories, name, toolchain
    and TargetConfig (lib/target/include/target/target.h:68-78,
    lib/target/include/target/common/target_config.h:28-38). *)
Record tenv := TE {
  te_root : string;       (* GetTargetRootDir() *)
  te_build : string;      (* GetTargetBuildDir() *)
  te_name : string;
  te_ext : string;        (* TargetConfig::target_ext *)
  te_tc : tconfig;
  te_asm : string; te_cc : string; te_cxx : string; te_ar : string; te_ld : string;
  te_pch_command : string;
  te_compile_command : string;
  te_link_command : string }.

(** The options of one run, as given to the Add* calls. *)
Record cfg := CFG {
  c_sources : list string;
  c_headers : list string;
  c_pchs : list string;
  c_libs : list string;
  c_external_libs : list string;
  c_include_dirs : list string;
  c_lib_dirs : list string;
  c_preprocessor : list string;
  c_common : list string;
  c_pch_compile : list string;
  c_pch_object : list string;
  c_asm_flags : list string;
  c_c_flags : list string;
  c_cpp_flags : list string;
  c_link : list string;
  c_compile_deps : list string;
  c_link_deps : list string }.

(** api/source_api.h:39-44, include_api.h:45-50, pch_api.h:35-41, deps_api.h:44-69,
    lib_api.h:54-76: every path goes through [PathInfoList::Emplace(path, "")]. *)
Definition infos (l : list string) : infolist :=
  fold_left (fun acc p => il_emplace acc p "") l [].
Definition dirs (l : list string) : pathlist := fold_left pl_emplace l [].

(** The [user_] schema when Build() is called; [name] and [type] of the schema
    are never assigned by lib/target (target_schema.h:29-30 defaults). *)
Definition user_of (c : cfg) : tschema :=
  TS "" TUndefined (infos (c_sources c)) (infos (c_headers c)) (infos (c_pchs c))
     (infos (c_libs c)) (c_external_libs c) (dirs (c_include_dirs c)) (dirs (c_lib_dirs c))
     (c_preprocessor c) (c_common c) (c_pch_compile c) (c_pch_object c) (c_asm_flags c)
     (c_c_flags c) (c_cpp_flags c) (c_link c) (infos (c_compile_deps c)) (infos (c_link_deps c))
     false false.

(** target_schema.h:28-56: a default-constructed schema ([store_] at first). *)
Definition ts_default : tschema :=
  TS "" TUndefined [] [] [] [] [] [] [] [] [] [] [] [] [] [] [] [] [] false false.

Definition sources (c : cfg) : list string := il_paths (ts_sources (user_of c)).
Definition headers (c : cfg) : list string := il_paths (ts_headers (user_of c)).
Definition pchs (c : cfg) : list string := il_paths (ts_pchs (user_of c)).
Definition libs (c : cfg) : list string := il_paths (ts_libs (user_of c)).
Definition compile_deps (c : cfg) : list string := il_paths (ts_compile_deps (user_of c)).
Definition link_deps (c : cfg) : list string := il_paths (ts_link_deps (user_of c)).

(** ** Commands *)

(** lib/target/include/target/common/util.h:28-30 [aggregate] *)
Definition aggregate (l : list string) : string := join " " l.
(** util.h:32-41 [aggregate_with_prefix] *)
Definition aggregate_with_prefix (pre : string) (l : list string) : string :=
  aggregate (map (fun x => pre +++ x) l).

(** build.cpp:59-70 with target_state.cpp:25-43: ContainsCpp, ContainsPch. *)
Definition contains_cpp (e : tenv) (c : cfg) : bool :=
  existsb (fun s => match get_file_ext (te_tc e) s with ExtCpp => true | _ => false end) (sources c).
Definition contains_pch (c : cfg) : bool := negb (is_nil (ts_pchs (user_of c))).

(** build.cpp:73-113: the default arguments ([toolchain_.Get*()] are formatted
    as fs::path); the maps have distinct keys, so their order is irrelevant. *)
Definition default_args (e : tenv) (c : cfg) : command :=
  let u := user_of c in
  let a := add_default_arguments command_init
    [ ("include_dirs", aggregate_with_prefix (tc_prefix_include (te_tc e)) (ts_include_dirs u));
      ("lib_dirs", aggregate_with_prefix (tc_prefix_lib (te_tc e)) (ts_lib_dirs u));
      ("preprocessor_flags", aggregate (ts_preprocessor_flags u));
      ("common_compile_flags", aggregate (ts_common_compile_flags u));
      ("link_flags", aggregate (ts_link_flags u));
      ("asm_compiler", to_display_string (te_asm e));
      ("c_compiler", to_display_string (te_cc e));
      ("cpp_compiler", to_display_string (te_cxx e));
      ("archiver", to_display_string (te_ar e));
      ("linker", to_display_string (te_ld e)) ] in
  add_default_arguments a
    (if contains_pch c then
       [ ("pch_compile_flags", aggregate (ts_pch_compile_flags u));
         ("pch_object_flags", aggregate (ts_pch_object_flags u));
         ("pch_object_output",
          to_display_string (pch_object_path (te_build e) (tc_pch_header_ext (te_tc e)) (tc_obj_ext (te_tc e)))) ]
     else
       [ ("pch_compile_flags", ""); ("pch_object_flags", ""); ("pch_object_output", "") ]).

(** target.cpp:64-79 [SelectCompileFlags(...).value_or("")] *)
Definition select_flags (c : cfg) (x : file_ext) : string :=
  let u := user_of c in
  match x with
  | ExtAsm => aggregate (ts_asm_compile_flags u)
  | ExtC => aggregate (ts_c_compile_flags u)
  | ExtCpp => aggregate (ts_cpp_compile_flags u)
  | _ => ""
  end.
(** target.cpp:81-96 [SelectCompiler(...).value_or("")] *)
Definition select_compiler (e : tenv) (x : file_ext) : string :=
  match x with ExtAsm => te_asm e | ExtC => te_cc e | ExtCpp => te_cxx e | _ => "" end.

(** compile_object.cpp:32-40, 109-164: the object file of a source. *)
Definition obj_of (e : tenv) (s : string) : string :=
  object_path (te_root e) (te_build e) (tc_obj_ext (te_tc e)) s.

(** compile_object.cpp:42-64 [CacheCompileCommands] for one source (a key of
    [object_files_], already normalised). *)
Definition compile_command (e : tenv) (c : cfg) (s : string) : fres :=
  let x := get_file_ext (te_tc e) s in
  construct (default_args e c) (te_compile_command e)
    [ ("compiler", to_display_string (select_compiler e x));
      ("compile_flags", select_flags c x);
      ("output", to_display_string (obj_of e s));
      ("input", s) ].

(** compile_pch.cpp:145-165 [ConstructCompileCommand] *)
Definition pch_command (e : tenv) (c : cfg) : fres :=
  let cpp := contains_cpp e c in
  let hx := tc_pch_header_ext (te_tc e) in
  construct (default_args e c) (te_pch_command e)
    [ ("compiler", to_display_string (if cpp then te_cxx e else te_cc e));
      ("compile_flags", select_flags c (if cpp then ExtCpp else ExtC));
      ("output", to_display_string (pch_compile_path (te_build e) hx (tc_pch_compile_ext (te_tc e))));
      ("input", to_display_string (pch_header_path (te_build e) hx));
      ("input_source", to_display_string (pch_source_path (te_build e) hx cpp)) ].

(** link_target.cpp:31-48 [CacheLinkCommand]; [ord] are the keys of
    [object_files_] in the iteration order of the unordered_map
    (compile_object.cpp:66-72 [GetCompiledSources]). *)
Definition link_command (e : tenv) (c : cfg) (ord : list string) : fres :=
  let u := user_of c in
  construct (default_args e c) (te_link_command e)
    [ ("output", to_display_string (target_output_path (te_build e) (te_name e) (te_ext e)));
      ("compiled_sources", aggregate (map (fun s => to_display_string (obj_of e s)) ord));
      ("lib_deps", aggregate (il_paths (ts_libs u)) +++ " " +++ aggregate (ts_external_libs u)) ].

(** compile_pch.cpp:30-58 [kFormat] and [AggregateToFile]: the text of the
    generated header for the given PCH files. *)
Definition nl : string := String "010"%char "".
Definition crlf : string := String "013"%char nl.
Definition pch_format : string :=
  "// Generated by BuildCC" +++ nl +++ "#ifndef BUILDCC_GENERATED_PCH_H_" +++ nl +++
  "#define BUILDCC_GENERATED_PCH_H_" +++ nl +++ nl +++ "// clang-format off" +++ nl +++
  "{aggregated_includes}" +++ nl +++ nl +++ "#endif" +++ nl.
Definition pch_header_text (files : list string) : fres :=
  construct command_init pch_format
    [ ("aggregated_includes",
       join "" (map (fun f => "#include " +++ str1 ch_quote +++ f +++ str1 ch_quote +++ crlf) files)) ].

(** ** Disk *)

Definition times := string -> option N.   (* last-write times; None: no such file *)

(** Artifacts carry their provenance: the command that wrote them and what it
    saw.  For the PCH also the text of the generated header it compiled. *)
Record pch_art := PA { p_cmd : string; p_text : fres; p_snap : times }.
Record obj_art := OA { a_cmd : string; a_snap : times; a_pch : option pch_art }.
Record tgt_art := TA { l_cmd : string; l_snap : times; l_objs : string -> option obj_art }.

Record disk := DK {
  d_mt : times;
  d_pch : option pch_art;
  d_obj : string -> option obj_art;     (* by object path *)
  d_tgt : option tgt_art;
  d_store : option string;              (* text of the state file {name}.bin *)
  (* history: did the last attempt to run a command for this artifact fail? *)
  d_pch_bad : bool;
  d_obj_bad : string -> bool;
  d_tgt_bad : bool }.

Definition upd {A} (f : string -> A) (k : string) (v : A) : string -> A :=
  fun x => if String.eqb x k then v else f x.

Definition set_mt (d : disk) (m : times) : disk :=
  DK m (d_pch d) (d_obj d) (d_tgt d) (d_store d) (d_pch_bad d) (d_obj_bad d) (d_tgt_bad d).
Definition set_pch (d : disk) (p : option pch_art) (bad : bool) : disk :=
  DK (d_mt d) p (d_obj d) (d_tgt d) (d_store d) bad (d_obj_bad d) (d_tgt_bad d).
Definition set_obj (d : disk) (k : string) (a : option obj_art) (bad : bool) : disk :=
  DK (d_mt d) (d_pch d) (upd (d_obj d) k a) (d_tgt d) (d_store d) (d_pch_bad d)
     (upd (d_obj_bad d) k bad) (d_tgt_bad d).
Definition set_tgt (d : disk) (t : option tgt_art) (bad : bool) : disk :=
  DK (d_mt d) (d_pch d) (d_obj d) t (d_store d) (d_pch_bad d) (d_obj_bad d) bad.
Definition set_store (d : disk) (s : option string) : disk :=
  DK (d_mt d) (d_pch d) (d_obj d) (d_tgt d) s (d_pch_bad d) (d_obj_bad d) (d_tgt_bad d).

(** What LoadFromFile finds (serialization_interface.h:37-55). *)
Definition stored (d : disk) : option tschema := bind (d_store d) load_text.

(** ** Checks *)

(** path.h:176-180 [ComputeHashForAll]: stops (throws) at the first file whose
    time cannot be read; the entries before it are already updated. *)
Fixpoint hash_all (mt : times) (l : infolist) : infolist * bool :=
  match l with
  | [] => ([], true)
  | i :: r =>
      match compute_hash mt (pi_path i) with
      | Fatal => (l, false)
      | Ok h => let (r', b) := hash_all mt r in (PI (pi_path i) h :: r', b)
      end
  end.

(** Field updates of the schema. *)
Definition with_sources (u : tschema) (l : infolist) : tschema :=
  TS (ts_name u) (ts_type u) l (ts_headers u) (ts_pchs u) (ts_libs u) (ts_external_libs u)
     (ts_include_dirs u) (ts_lib_dirs u) (ts_preprocessor_flags u) (ts_common_compile_flags u)
     (ts_pch_compile_flags u) (ts_pch_object_flags u) (ts_asm_compile_flags u) (ts_c_compile_flags u)
     (ts_cpp_compile_flags u) (ts_link_flags u) (ts_compile_deps u) (ts_link_deps u)
     (ts_pch_compiled u) (ts_target_linked u).
Definition with_headers (u : tschema) (l : infolist) : tschema :=
  TS (ts_name u) (ts_type u) (ts_sources u) l (ts_pchs u) (ts_libs u) (ts_external_libs u)
     (ts_include_dirs u) (ts_lib_dirs u) (ts_preprocessor_flags u) (ts_common_compile_flags u)
     (ts_pch_compile_flags u) (ts_pch_object_flags u) (ts_asm_compile_flags u) (ts_c_compile_flags u)
     (ts_cpp_compile_flags u) (ts_link_flags u) (ts_compile_deps u) (ts_link_deps u)
     (ts_pch_compiled u) (ts_target_linked u).
Definition with_pchs (u : tschema) (l : infolist) (compiled : bool) : tschema :=
  TS (ts_name u) (ts_type u) (ts_sources u) (ts_headers u) l (ts_libs u) (ts_external_libs u)
     (ts_include_dirs u) (ts_lib_dirs u) (ts_preprocessor_flags u) (ts_common_compile_flags u)
     (ts_pch_compile_flags u) (ts_pch_object_flags u) (ts_asm_compile_flags u) (ts_c_compile_flags u)
     (ts_cpp_compile_flags u) (ts_link_flags u) (ts_compile_deps u) (ts_link_deps u)
     compiled (ts_target_linked u).
Definition with_libs (u : tschema) (l : infolist) : tschema :=
  TS (ts_name u) (ts_type u) (ts_sources u) (ts_headers u) (ts_pchs u) l (ts_external_libs u)
     (ts_include_dirs u) (ts_lib_dirs u) (ts_preprocessor_flags u) (ts_common_compile_flags u)
     (ts_pch_compile_flags u) (ts_pch_object_flags u) (ts_asm_compile_flags u) (ts_c_compile_flags u)
     (ts_cpp_compile_flags u) (ts_link_flags u) (ts_compile_deps u) (ts_link_deps u)
     (ts_pch_compiled u) (ts_target_linked u).
Definition with_deps (u : tschema) (cd ld : infolist) : tschema :=
  TS (ts_name u) (ts_type u) (ts_sources u) (ts_headers u) (ts_pchs u) (ts_libs u) (ts_external_libs u)
     (ts_include_dirs u) (ts_lib_dirs u) (ts_preprocessor_flags u) (ts_common_compile_flags u)
     (ts_pch_compile_flags u) (ts_pch_object_flags u) (ts_asm_compile_flags u) (ts_c_compile_flags u)
     (ts_cpp_compile_flags u) (ts_link_flags u) cd ld (ts_pch_compiled u) (ts_target_linked u).
Definition with_linked (u : tschema) (b : bool) : tschema :=
  TS (ts_name u) (ts_type u) (ts_sources u) (ts_headers u) (ts_pchs u) (ts_libs u) (ts_external_libs u)
     (ts_include_dirs u) (ts_lib_dirs u) (ts_preprocessor_flags u) (ts_common_compile_flags u)
     (ts_pch_compile_flags u) (ts_pch_object_flags u) (ts_asm_compile_flags u) (ts_c_compile_flags u)
     (ts_cpp_compile_flags u) (ts_link_flags u) (ts_compile_deps u) (ts_link_deps u)
     (ts_pch_compiled u) b.

(** compile_pch.cpp:167-173 [PreCompile]; false = an exception. *)
Definition pch_pre (mt : times) (u : tschema) : tschema * bool :=
  let (h, b1) := hash_all mt (ts_headers u) in
  let u1 := with_headers u h in
  if b1 then
    let (p, b2) := hash_all mt (ts_pchs u1) in
    (with_pchs u1 p (ts_pch_compiled u1), b2)
  else (u1, false).

(** compile_object.cpp:214-225 [PreObjectCompile] *)
Definition obj_pre (mt : times) (u : tschema) : tschema * bool :=
  let (s, b1) := hash_all mt (ts_sources u) in
  let u1 := with_sources u s in
  if b1 then
    let (h, b2) := hash_all mt (ts_headers u1) in
    let u2 := with_headers u1 h in
    if b2 then
      let (d, b3) := hash_all mt (ts_compile_deps u2) in
      (with_deps u2 d (ts_link_deps u2), b3)
    else (u2, false)
  else (u1, false).

(** link_target.cpp:60-66 [PreLink] *)
Definition link_pre (mt : times) (u : tschema) : tschema * bool :=
  let (l, b1) := hash_all mt (ts_libs u) in
  let u1 := with_libs u l in
  if b1 then
    let (d, b2) := hash_all mt (ts_link_deps u1) in
    (with_deps u1 (ts_compile_deps u1) d, b2)
  else (u1, false).

(** compile_pch.cpp:80-104: the loaded and the user schema agree. *)
Definition pch_same (l u : tschema) : bool :=
  str_list_eqb (ts_preprocessor_flags l) (ts_preprocessor_flags u) &&
  str_list_eqb (ts_common_compile_flags l) (ts_common_compile_flags u) &&
  str_list_eqb (ts_pch_compile_flags l) (ts_pch_compile_flags u) &&
  str_list_eqb (ts_c_compile_flags l) (ts_c_compile_flags u) &&
  str_list_eqb (ts_cpp_compile_flags l) (ts_cpp_compile_flags u) &&
  str_list_eqb (ts_include_dirs l) (ts_include_dirs u) &&
  infolist_eqb (ts_headers l) (ts_headers u) &&
  infolist_eqb (ts_pchs l) (ts_pchs u) &&
  ts_pch_compiled l.

(** compile_object.cpp:176-205 *)
Definition obj_same (l u : tschema) : bool :=
  str_list_eqb (ts_preprocessor_flags l) (ts_preprocessor_flags u) &&
  str_list_eqb (ts_common_compile_flags l) (ts_common_compile_flags u) &&
  str_list_eqb (ts_pch_object_flags l) (ts_pch_object_flags u) &&
  str_list_eqb (ts_asm_compile_flags l) (ts_asm_compile_flags u) &&
  str_list_eqb (ts_c_compile_flags l) (ts_c_compile_flags u) &&
  str_list_eqb (ts_cpp_compile_flags l) (ts_cpp_compile_flags u) &&
  str_list_eqb (ts_include_dirs l) (ts_include_dirs u) &&
  infolist_eqb (ts_headers l) (ts_headers u) &&
  infolist_eqb (ts_compile_deps l) (ts_compile_deps u).

(** link_target.cpp:75-100 *)
Definition link_same (l u : tschema) : bool :=
  str_list_eqb (ts_link_flags l) (ts_link_flags u) &&
  str_list_eqb (ts_lib_dirs l) (ts_lib_dirs u) &&
  str_list_eqb (ts_external_libs l) (ts_external_libs u) &&
  infolist_eqb (ts_link_deps l) (ts_link_deps u) &&
  infolist_eqb (ts_libs l) (ts_libs u) &&
  ts_target_linked l.

(** compile_object.cpp:234-267 [RecompileSources]: [prev] is the unordered map of
    the previous sources still to be matched; the result is (selected, unchanged,
    dirty). *)
Fixpoint assoc_remove {B} (k : string) (l : list (string * B)) : list (string * B) :=
  match l with
  | [] => []
  | (k', v) :: r => if String.eqb k k' then assoc_remove k r else (k', v) :: assoc_remove k r
  end.
Fixpoint recompile_loop (prev : list (string * string)) (cur : infolist)
  : infolist * infolist * bool :=
  match cur with
  | [] => ([], [], negb (is_nil prev))
  | i :: r =>
      match assoc (pi_path i) prev with
      | None => let '(sel, dum, _) := recompile_loop prev r in (i :: sel, dum, true)
      | Some h =>
          let '(sel, dum, ch) := recompile_loop (assoc_remove (pi_path i) prev) r in
          if String.eqb h (pi_hash i) then (sel, i :: dum, ch) else (i :: sel, dum, true)
      end
  end.
Definition recompile_sources (prev cur : infolist) : infolist * infolist * bool :=
  recompile_loop (map (fun i => (pi_path i, pi_hash i)) prev) cur.

(** ** Stored state updates *)

(** schema/src/target_serialization.cpp:22-25 [UpdatePchCompiled] *)
Definition update_pch_compiled (b u : tschema) : tschema := with_pchs b (ts_pchs u) true.
(** target_serialization.cpp:28-32 [AddSource] *)
Definition add_source (b : tschema) (i : pathinfo) : tschema :=
  with_sources b (il_emplace (ts_sources b) (pi_path i) (pi_hash i)).
(** target_serialization.cpp:34-36 [UpdateTargetCompiled] *)
Definition update_target_compiled (b : tschema) : tschema := with_linked b true.
(** target_serialization.cpp:38-45 [UpdateStore] *)
Definition update_store (b u : tschema) : tschema :=
  with_linked (with_sources (with_pchs u (ts_pchs b) (ts_pch_compiled b)) (ts_sources b))
              (ts_target_linked b).

(** ** Transition system *)

(** Where the run is.  The taskflow of a target is the chain PCH (if any),
    objects with one parallel subtask per selected source, link, end
    (tasks.cpp:47-172); a chain position with an "Exec" waits for a command. *)
Inductive pcount :=
| Idle
| PcPch | PcPchExec
| PcObj | PcCompile (pending : infolist)
| PcLinkExec
| PcEnd.

(** Executed commands, in order. *)
Inductive xcmd := XPch (cmd : string) | XObj (source cmd : string) | XLink (cmd : string).

Record tstate := ST {
  s_disk : disk;
  s_pc : pcount;
  s_cfg : cfg;                 (* configuration of the current or last run *)
  s_ord : list string;         (* iteration order of object_files_ *)
  s_user : tschema;            (* user_ *)
  s_load : option tschema;     (* GetLoad() if IsLoaded() *)
  s_buf : tschema;             (* store_ *)
  s_dirty : bool;              (* dirty_ *)
  s_ok : bool;                 (* env::get_task_state() == SUCCESS *)
  s_log : list xcmd }.         (* all commands ever executed *)

(** How a command goes: success; failure, leaving any artifact behind (possibly
    the old one or none); or it could not be started. *)
Inductive xres (A : Type) := XOk | XFail (lo : option A) | XNotRun.
Arguments XOk {A}.
Arguments XFail {A} lo.
Arguments XNotRun {A}.

(** How writing the state file goes: fine; reported failure with the old file
    kept; reported failure or (save_file checks [bad()] before the buffer is
    flushed, lib/env/include/env/util.h:50-67) even reported success with only the
    first [n] bytes written. *)
Inductive wres := WOk | WKeep | WShort (n : nat) (reported_ok : bool).

Inductive event :=
(* environment, at any time *)
| EvEdit (f : string) (t : option N)
| EvFail                              (* a task of another target failed *)
| EvCrash                             (* the process is killed *)
| EvDropStore                         (* the state file is deleted *)
| EvDelObj (o : string) | EvDelPch | EvDelTgt
(* the run *)
| EvStart (c : cfg) (ord : list string)
| EvPchCheck | EvPchExec (r : xres pch_art)
| EvObjCheck | EvCompile (s : string) (r : xres obj_art)
| EvLinkCheck | EvLinkExec (r : xres tgt_art)
| EvEnd (w : wres)
| EvCrashEnd (n : nat).               (* killed while writing the state file *)

Definition with_disk (st : tstate) (d : disk) : tstate :=
  ST d (s_pc st) (s_cfg st) (s_ord st) (s_user st) (s_load st) (s_buf st) (s_dirty st) (s_ok st) (s_log st).
Definition with_pc (st : tstate) (p : pcount) : tstate :=
  ST (s_disk st) p (s_cfg st) (s_ord st) (s_user st) (s_load st) (s_buf st) (s_dirty st) (s_ok st) (s_log st).
Definition with_user (st : tstate) (u : tschema) : tstate :=
  ST (s_disk st) (s_pc st) (s_cfg st) (s_ord st) u (s_load st) (s_buf st) (s_dirty st) (s_ok st) (s_log st).
Definition with_buf (st : tstate) (b : tschema) : tstate :=
  ST (s_disk st) (s_pc st) (s_cfg st) (s_ord st) (s_user st) (s_load st) b (s_dirty st) (s_ok st) (s_log st).
Definition with_dirty (st : tstate) (b : bool) : tstate :=
  ST (s_disk st) (s_pc st) (s_cfg st) (s_ord st) (s_user st) (s_load st) (s_buf st) b (s_ok st) (s_log st).
Definition with_ok (st : tstate) (b : bool) : tstate :=
  ST (s_disk st) (s_pc st) (s_cfg st) (s_ord st) (s_user st) (s_load st) (s_buf st) (s_dirty st) b (s_log st).
Definition log_cmd (st : tstate) (x : xcmd) : tstate :=
  ST (s_disk st) (s_pc st) (s_cfg st) (s_ord st) (s_user st) (s_load st) (s_buf st) (s_dirty st) (s_ok st)
     (s_log st ++ [x]).
(** tasks.cpp: [catch (...) { set_task_state(FAILURE) }] *)
Definition fail (st : tstate) (p : pcount) : tstate := with_pc (with_ok st false) p.

(** execute.cpp:48: an empty command is refused. *)
Definition run_res {A} (cmd : string) (r : xres A) : xres A :=
  if String.eqb cmd "" then XNotRun else r.

(** [ord] lists every source path exactly once. *)
Fixpoint nodup_str (l : list string) : bool :=
  match l with [] => true | x :: r => negb (mem_str x r) && nodup_str r end.
Definition ord_ok (ord srcs : list string) : bool :=
  nodup_str ord && forallb (fun x => mem_str x srcs) ord && forallb (fun x => mem_str x ord) srcs.

(** All commands of a run, as cached by Build(). *)
Definition all_commands (e : tenv) (c : cfg) (ord : list string) : list fres :=
  (if contains_pch c then [pch_command e c] else []) ++
  map (compile_command e c) ord ++ [link_command e c ord].
Definition is_fok (r : fres) : bool := match r with FOk _ => true | _ => false end.
Definition is_fother (r : fres) : bool := match r with FOther => true | _ => false end.

(** build.cpp:54-127 [Build] in a new process; a command that cannot be
    constructed ends the process before anything is executed. Patterns outside
    the modelled format language ([FOther]) are not considered. *)
Definition start (e : tenv) (st : tstate) (c : cfg) (ord : list string) : option tstate :=
  if negb (ord_ok ord (sources c)) || existsb is_fother (all_commands e c ord) then None
  else if forallb is_fok (all_commands e c ord) then
    Some (ST (s_disk st) (if contains_pch c then PcPch else PcObj) c ord (user_of c)
             (stored (s_disk st)) ts_default false true (s_log st))
  else Some (with_ok st false).

(** tasks.cpp:47-68 and compile_pch.cpp:73-108: [CompilePch::Task] up to the
    execution of the command. *)
Definition pch_check (st : tstate) : tstate :=
  if negb (s_ok st) then with_pc st PcObj
  else
    let (u, b) := pch_pre (d_mt (s_disk st)) (s_user st) in
    let st1 := with_user st u in
    if negb b then fail st1 PcObj
    else
      let dirty := s_dirty st1 || match s_load st1 with None => true | Some l => negb (pch_same l u) end in
      if dirty then with_pc (with_dirty st1 true) PcPchExec
      else with_pc (with_buf st1 (update_pch_compiled (s_buf st1) u)) PcObj.

(** compile_pch.cpp:106-121, tasks.cpp:54-58.  [XNotRun] also covers failing to
    write the generated header or the placeholder source. *)
Definition pch_exec (e : tenv) (st : tstate) (r : xres pch_art) : option tstate :=
  match pch_command e (s_cfg st) with
  | FOk cmd =>
      let d := s_disk st in
      Some (match run_res cmd r with
            | XOk =>
                let art := PA cmd (pch_header_text (il_paths (ts_pchs (s_user st)))) (d_mt d) in
                let st1 := log_cmd (with_disk st (set_pch d (Some art) false)) (XPch cmd) in
                with_pc (with_buf st1 (update_pch_compiled (s_buf st1) (s_user st1))) PcObj
            | XFail lo =>
                fail (log_cmd (with_disk st (set_pch d lo true)) (XPch cmd)) PcObj
            | XNotRun => fail (with_disk st (set_pch d (d_pch d) true)) PcObj
            end)
  | _ => None
  end.

(** tasks.cpp:80-100, 112-121 and compile_object.cpp:166-212: the check, the
    recording of unchanged sources and the creation of the subtasks. *)
Definition obj_check (st : tstate) : tstate :=
  if negb (s_ok st) then with_pc st (PcCompile [])
  else
    let (u, b) := obj_pre (d_mt (s_disk st)) (s_user st) in
    let st1 := with_user st u in
    if negb b then fail st1 (PcCompile [])
    else
      let dirty := match s_load st1 with
                   | None => true
                   | Some l => s_dirty st1 || negb (obj_same l u)
                   end in
      let '(sel, dum, dirty') :=
        if dirty then (ts_sources u, [], true)
        else match s_load st1 with
             | None => ([], [], true)      (* not reachable: dirty *)
             | Some l => recompile_sources (ts_sources l) (ts_sources u)
             end in
      with_pc (with_buf (with_dirty st1 dirty') (fold_left add_source dum (s_buf st1))) (PcCompile sel).

(** Take the first pending entry for a source. *)
Fixpoint take_pending (s : string) (l : infolist) : option (pathinfo * infolist) :=
  match l with
  | [] => None
  | i :: r =>
      if String.eqb (pi_path i) s then Some (i, r)
      else match take_pending s r with Some (x, r') => Some (x, i :: r') | None => None end
  end.

(** tasks.cpp:101-111: one compile subtask. *)
Definition compile_one (e : tenv) (st : tstate) (s : string) (pend : infolist) (r : xres obj_art)
  : option tstate :=
  match take_pending s pend, compile_command e (s_cfg st) s with
  | Some (i, rest), FOk cmd =>
      let d := s_disk st in
      let st0 := with_pc st (PcCompile rest) in
      Some (match run_res cmd r with
            | XOk =>
                let art := OA cmd (d_mt d) (d_pch d) in
                let st1 := log_cmd (with_disk st0 (set_obj d (obj_of e s) (Some art) false)) (XObj s cmd) in
                with_buf st1 (add_source (s_buf st1) i)
            | XFail lo =>
                with_ok (log_cmd (with_disk st0 (set_obj d (obj_of e s) lo true)) (XObj s cmd)) false
            | XNotRun => with_ok (with_disk st0 (set_obj d (obj_of e s) (d_obj d (obj_of e s)) true)) false
            end)
  | _, _ => None
  end.

(** tasks.cpp:132-144 and link_target.cpp:68-101 *)
Definition link_check (st : tstate) : tstate :=
  if negb (s_ok st) then with_pc st PcEnd
  else
    let (u, b) := link_pre (d_mt (s_disk st)) (s_user st) in
    let st1 := with_user st u in
    if negb b then fail st1 PcEnd
    else
      let dirty := match s_load st1 with
                   | None => true
                   | Some l => s_dirty st1 || negb (link_same l u)
                   end in
      with_pc (with_dirty st1 dirty) (if dirty then PcLinkExec else PcEnd).

(** link_target.cpp:103-107 *)
Definition link_exec (e : tenv) (st : tstate) (r : xres tgt_art) : option tstate :=
  match link_command e (s_cfg st) (s_ord st) with
  | FOk cmd =>
      let d := s_disk st in
      Some (match run_res cmd r with
            | XOk =>
                let art := TA cmd (d_mt d) (d_obj d) in
                let st1 := log_cmd (with_disk st (set_tgt d (Some art) false)) (XLink cmd) in
                with_pc (with_buf st1 (update_target_compiled (s_buf st1))) PcEnd
            | XFail lo =>
                fail (log_cmd (with_disk st (set_tgt d lo true)) (XLink cmd)) PcEnd
            | XNotRun => fail (with_disk st (set_tgt d (d_tgt d) true)) PcEnd
            end)
  | _ => None
  end.

(** First [n] bytes of a text, only if that is not all of it. *)
Definition short (n : nat) (t : string) : option string :=
  if Nat.ltb n (String.length t) then Some (String.substring 0 n t) else None.

(** tasks.cpp:150-164 [EndTask] *)
Definition end_task (st : tstate) (w : wres) : option tstate :=
  if s_dirty st then
    let b := update_store (s_buf st) (s_user st) in
    let st1 := with_pc (with_dirty (with_buf st b) false) Idle in
    match store_text b with
    | None => match w with WOk => Some (with_ok st1 false) | _ => None end   (* dump throws *)
    | Some t =>
        match w with
        | WOk => Some (with_disk st1 (set_store (s_disk st1) (Some t)))
        | WKeep => Some (with_ok st1 false)
        | WShort n rep =>
            match short n t with
            | None => None
            | Some t' =>
                let st2 := with_disk st1 (set_store (s_disk st1) (Some t')) in
                Some (if rep then st2 else with_ok st2 false)
            end
        end
    end
  else match w with WOk => Some (with_pc st Idle) | _ => None end.

(** Killed: memory is gone. *)
Definition killed (st : tstate) : tstate := with_pc (with_dirty (with_ok st false) false) Idle.

Definition step (e : tenv) (st : tstate) (ev : event) : option tstate :=
  let d := s_disk st in
  match ev with
  | EvEdit f t => Some (with_disk st (set_mt d (upd (d_mt d) f t)))
  | EvFail => Some (with_ok st false)
  | EvDropStore => Some (with_disk st (set_store d None))
  | EvDelObj o => Some (with_disk st (set_obj d o None (d_obj_bad d o)))
  | EvDelPch => Some (with_disk st (set_pch d None (d_pch_bad d)))
  | EvDelTgt => Some (with_disk st (set_tgt d None (d_tgt_bad d)))
  | EvCrash => match s_pc st with Idle => None | _ => Some (killed st) end
  | EvStart c ord => match s_pc st with Idle => start e st c ord | _ => None end
  | EvPchCheck => match s_pc st with PcPch => Some (pch_check st) | _ => None end
  | EvPchExec r => match s_pc st with PcPchExec => pch_exec e st r | _ => None end
  | EvObjCheck => match s_pc st with PcObj => Some (obj_check st) | _ => None end
  | EvCompile s r => match s_pc st with PcCompile p => compile_one e st s p r | _ => None end
  | EvLinkCheck => match s_pc st with PcCompile [] => Some (link_check st) | _ => None end
  | EvLinkExec r => match s_pc st with PcLinkExec => link_exec e st r | _ => None end
  | EvEnd w => match s_pc st with PcEnd => end_task st w | _ => None end
  | EvCrashEnd n =>
      match s_pc st with
      | PcEnd =>
          if s_dirty st then
            match bind (store_text (update_store (s_buf st) (s_user st))) (short n) with
            | Some t' => Some (killed (with_disk st (set_store d (Some t'))))
            | None => None
            end
          else None
      | _ => None
      end
  end.

Fixpoint exec (e : tenv) (st : tstate) (evs : list event) : option tstate :=
  match evs with
  | [] => Some st
  | ev :: r => match step e st ev with Some st' => exec e st' r | None => None end
  end.

(** Before the first run: no state file; anything else may be on disk. *)
Definition init (d : disk) : tstate :=
  ST (set_store d None) Idle (CFG [] [] [] [] [] [] [] [] [] [] [] [] [] [] [] [] []) [] ts_default None
     ts_default false false [].
