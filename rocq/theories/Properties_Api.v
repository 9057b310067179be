(** C64 - C66: describing a target. *)
From Verif Require Import Prelude Model_Path Model_Json Model_Schema Model_Command Model_ToolchainConfig Model_Target
  Model_Sync Spec_Sync Model_Api Spec_Api Spec_Target Proof_Api Proof_TargetDup Proof_TargetCase Proof_ApiCase.

(** C64: every option holds the flags of the toolchain followed by exactly what
    the calls name, in the order of the calls ... *)
Theorem C64_options_exact : forall (a : apienv) (t : tcflags) (cs : list call) (u : tschema),
  api_run a (new_target t) cs = Ok u ->
  forall x, entries x u = map plain_entry (toolchain_flags t x) ++ added a x cs.
Proof. exact described. Qed.
Print Assumptions C64_options_exact.

(** ... the calls are accepted iff none of them names something refused ... *)
Theorem C64_refused_iff : forall (a : apienv) (t : tcflags) (cs : list call),
  api_run a (new_target t) cs = Fatal <-> exists c, In c cs /\ refused a c.
Proof. exact described_or_refused. Qed.
Print Assumptions C64_refused_iff.

(** ... and these options, nothing else, are what is built: the schema a run of
    the target starts with. *)
Theorem C64_built_as_described : forall (a : apienv) (t : tcflags) (cs : list call) (u : tschema),
  api_run a (new_target t) cs = Ok u -> user_of (cfg_of u) = u.
Proof. exact described_cfg. Qed.
Print Assumptions C64_built_as_described.

Example C64_case : exists u, api_run ae0 (new_target tf0) calls0 = Ok u /\
  entries SourceFiles u = [("/p/src/main.cpp", Some ""); ("/p/lib/a.c", Some ""); ("/p/lib/b.s", Some "")] /\
  entries HeaderFiles u = [("/p/inc/x.h", Some "")] /\ entries IncludeDirs u = [("/p/inc", None)] /\
  entries CppCompileFlags u = [("-std=c++17", None); ("-O2", None)] /\
  entries LibDeps u = [("/b/libx/x.a", Some "")] /\
  api_run ae0 (new_target tf0) (calls0 ++ [AddSource "notes.txt" ""]) = Fatal /\
  api_run ae0 (new_target tf0) (calls0 ++ [GlobHeaders "missing"]) = Fatal.
Proof. eexists. split; [vm_compute; reflexivity|]. repeat (split; [vm_compute; reflexivity|]). vm_compute. reflexivity. Qed.

(** C65: every source of a described target, as recorded, is one the toolchain
    compiles: its language has a compiler. Headers are headers. *)
Theorem C65_sources_compilable_partial : forall (a : apienv) (t : tcflags) (cs : list call) (u : tschema) (s : string),
  api_run a (new_target t) cs = Ok u -> In s (il_paths (ts_sources u)) ->
  is_valid_source (ae_tc a) s = true /\
  (get_file_ext (ae_tc a) s = ExtAsm \/ get_file_ext (ae_tc a) s = ExtC \/ get_file_ext (ae_tc a) s = ExtCpp).
Proof. exact sources_compilable. Qed.
Print Assumptions C65_sources_compilable_partial.

Theorem C65_headers_valid : forall (a : apienv) (t : tcflags) (cs : list call) (u : tschema) (h : string),
  api_run a (new_target t) cs = Ok u -> In h (il_paths (ts_headers u) ++ il_paths (ts_pchs u)) ->
  is_valid_header (ae_tc a) h = true.
Proof. exact headers_valid. Qed.
Print Assumptions C65_headers_valid.

Example C65_case : exists u, api_run ae0 (new_target tf0) calls0 = Ok u /\
  In "/p/lib/b.s" (il_paths (ts_sources u)) /\ In "/p/inc/x.h" (il_paths (ts_headers u) ++ il_paths (ts_pchs u)).
Proof. eexists. split; [vm_compute; reflexivity|]. split; vm_compute; auto. Qed.

(** Missing: Copy and Insert take over sources of a target with another toolchain
    unchecked. Here the command has no compiler at all. *)
Theorem C65_foreign_source_refuted :
  exists (a2 : apienv) (cs2 : list call) (u1 u2 : tschema),
    api_run ae0 (new_target tf0) [] = Ok u1 /\ api_run a2 (new_target tf0) cs2 = Ok u2 /\
    let u := fst (insert ByRef u1 u2 [SourceFiles]) in
    In "/p/k.cu" (sources (cfg_of u)) /\ is_valid_source (ae_tc ae0) "/p/k.cu" = false /\
    compile_command e0 (cfg_of u) "/p/k.cu" = FOk " -DX     -o /p/_b/t/k.cu.o -c /p/k.cu".
Proof. exact foreign_source. Qed.
Print Assumptions C65_foreign_source_refuted.

(** C66: a file named by two calls (or twice by one) is compiled in every
    successful run, and the target is linked in every successful run. *)
Theorem C66_repeated_source_refuted : forall (a : apienv) (t : tcflags) (cs : list call) (u : tschema),
  api_run a (new_target t) cs = Ok u -> ~ NoDup (added a SourceFiles cs) ->
  forall (e : tenv) (st : tstate) (ord : list string) (run : list event) (st2 : tstate),
  exec e st (EvStart (cfg_of u) ord :: run) = Some st2 -> Forall own run -> s_pc st2 = Idle -> s_ok st2 = true ->
  exists l, s_log st2 = s_log st ++ l /\ (exists s cmd, In (XObj s cmd) l) /\ (exists cmd, In (XLink cmd) l).
Proof. exact repeated_call_compiled. Qed.
Print Assumptions C66_repeated_source_refuted.

(** A source added by name and again by globbing its directory; two runs. *)
Example C66_case : exists u, api_run ae0 (new_target tf0) [AddSource "a.c" "lib"; GlobSources "lib/."] = Ok u /\
  ~ NoDup (added ae0 SourceFiles [AddSource "a.c" "lib"; GlobSources "lib/."]) /\
  twice_built (cfg_of u) = true.
Proof. exact repeated_case. Qed.

(** What holds: if no file is named twice, an idle run stays idle (C04). *)
Theorem C66_distinct_sources_partial : forall (a : apienv) (t : tcflags) (cs : list call) (u : tschema),
  api_run a (new_target t) cs = Ok u -> NoDup (map fst (added a SourceFiles cs)) -> NoDup (sources (cfg_of u)).
Proof. exact described_distinct. Qed.
Print Assumptions C66_distinct_sources_partial.
