(** What the theorems about the example with generated sources talk about. *)
From Verif Require Import Prelude Model_Path Spec_Path Model_Json Model_Schema Model_Command Model_ToolchainConfig Model_Target Spec_Target
  Model_Gen Spec_Gen Model_FileGen Spec_FileGen Model_Sync Model_Api Spec_Api Model_Toolchains Model_Targets Model_Reg Spec_Reg
  Model_Project Spec_Project Model_Full Spec_Full Model_Script Spec_Script Model_Chain.

(** What the generators write: <build>/cpp_generator/main.cpp, <build>/c_generator/main.c *)
Definition main_cpp (p : Model_Targets.project) : string := path_div (path_div (pr_build p) "cpp_generator") "main.cpp".
Definition main_c (p : Model_Targets.project) : string := path_div (path_div (pr_build p) "c_generator") "main.c".
Definition chain_files (p : Model_Targets.project) : list (string * list string) :=
  [("cpp_generator", [main_cpp p]); ("c_generator", [main_c p])].
Definition chain_gids : list string := ["cpp_generator"; "c_generator"].
(** The script both generators execute. *)
Definition gen_py (p : Model_Targets.project) : string := to_path_string (path_div (pr_root p) "python/gen.py").

(** The directories of the project are absolute and normalised, and the root
    directory does not lie in one of the generated files. *)
Definition proper_dirs (p : Model_Targets.project) : Prop :=
  pr_init p = true /\ abs_canonical (pr_root p) /\ abs_canonical (pr_build p) /\
  forall t, names (pr_root p) <> names (main_cpp p) ++ t /\ names (pr_root p) <> names (main_c p) ++ t.

(** A process of the program, with any command line. *)
Definition chain_session (p : Model_Targets.project) (se : session) : Prop :=
  exists ls n clean g gt m mt, chain_main p ls g m = AOk (se_script se, se_gens se) /\ registers n (chain_prog clean g gt m mt) (se_reg se).

(** At the beginning nothing is linked; whatever else lies around. *)
Definition unbuilt (mt0 : Model_Target.times) (ts : list target) (l : list (string * (tenv * disk))) : Prop :=
  exists d : string -> disk, l = map (fun t => (g_unique_id t, (g_env t, d (g_unique_id t)))) ts /\
    forall t, In t ts -> d_mt (d (g_unique_id t)) = mt0 /\ mt0 (out_file (g_env t)) = None /\ d_tgt (d (g_unique_id t)) = None.

(** The source each target is compiled from. *)
Definition chain_source (p : Model_Targets.project) (id : string) : option string :=
  assoc id [("[gcc] cpptarget", main_cpp p); ("[gcc] ctarget", main_c p); ("[msvc] cpptarget", main_cpp p); ("[msvc] ctarget", main_c p)].
(** The command that writes a generated file; it can be stored (C57). *)
Definition script_call (p : Model_Targets.project) (kind file : string) : string :=
  "python3 " +++ to_path_string (path_div (pr_root p) "") +++ "/python/gen.py --source_type " +++ kind +++ " --destination " +++ file.
Definition storable (p : Model_Targets.project) : Prop :=
  encodable [script_call p "cpp" (main_cpp p)] /\ encodable [script_call p "c" (main_c p)].
(** The generator [o] runs this command, reads nothing and writes [file]. *)
Definition runs_script (p : Model_Targets.project) (kind file : string) (o : gobj) : Prop :=
  go_ids o = [("Generate", GI [] [file] (Some (strings_handler [script_call p kind file])))].
