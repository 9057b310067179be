(** A build script started with --clean: Reg::Init, the callback that deletes the
    build directory (buildexe/buildexe.cpp:51, 77-80; likewise in all examples,
    example/hybrid/simple/build.cpp:27, 67-70), then the program as in Model_Full.v.
    Files are under /repo/buildcc unless a longer path is given.

    Simplifications: all paths are absolute and there are no symbolic links (so
    the operating system finds a file by walking along the names of its path);
    remove_all succeeds (an error is an exception, which ends the script). *)
From Verif Require Import Prelude Model_Path Model_Schema Model_Command Model_ToolchainConfig Model_Target Model_Gen
  Model_Reg Model_Project Model_Full Model_Targets Model_Args.

(** Where the operating system ends up; innermost name first. *)
Definition resolve_step (at_ : list string) (n : string) : list string :=
  if is_dot n then at_ else if is_dotdot n then tl at_ else n :: at_.
Definition resolve (s : string) : list string := fold_left resolve_step (pp_comps (parse_path s)) [].

Fixpoint is_prefix (a b : list string) : bool :=
  match a, b with
  | [], _ => true
  | x :: a', y :: b' => String.eqb x y && is_prefix a' b'
  | _ :: _, [] => false
  end.
(** Does fs::remove_all([dir]) delete the file [f]? *)
Definition removes (dir f : string) : bool := is_prefix (rev (resolve dir)) (rev (resolve f)).
Definition without {A} (dir f : string) (x : option A) : option A := if removes dir f then None else x.

(** lib/target/include/target/target.h:72-75: the state file of a target *)
Definition target_state_file (e : tenv) : string := path_div (te_build e) (te_name e +++ ".bin").
(** lib/target/include/target/custom_generator.h:64-70: the state file of a generator *)
Definition generator_state_file (env : target_env) (name : string) : string :=
  path_div (path_div (en_build env) name) (name +++ ".json").

(** What is on disk of a program: of each target its artifacts, of each generator
    its state file (with its path). What generators have made is kept as history
    only, and forgotten here. *)
Definition disks := list (string * (tenv * disk)).
Definition gdisks := list (string * (string * gdisk)).

Definition clean_times (dir : string) (m : times) : times := fun f => without dir f (m f).
Definition clean_disk (dir : string) (e : tenv) (d : disk) : disk :=
  DK (clean_times dir (d_mt d))
     (without dir (pch_compile_path (te_build e) (tc_pch_header_ext (te_tc e)) (tc_pch_compile_ext (te_tc e))) (d_pch d))
     (fun o => without dir o (d_obj d o))
     (without dir (target_output_path (te_build e) (te_name e) (te_ext e)) (d_tgt d))
     (without dir (target_state_file e) (d_store d))
     (d_pch_bad d) (d_obj_bad d) (d_tgt_bad d).
Definition clean_gdisk (dir file : string) (d : gdisk) : gdisk :=
  GD (clean_times dir (gd_mt d)) (without dir file (gd_store d)) (gd_made d).
Definition clean_targets (dir : string) (l : disks) : disks :=
  map (fun x => (fst x, (fst (snd x), clean_disk dir (fst (snd x)) (snd (snd x))))) l.
Definition clean_gens (dir : string) (l : gdisks) : gdisks :=
  map (fun x => (fst x, (fst (snd x), clean_gdisk dir (fst (snd x)) (snd (snd x))))) l.

(** A process that has done nothing yet. *)
Definition begin_target (d : disk) : tstate :=
  ST d Idle (CFG [] [] [] [] [] [] [] [] [] [] [] [] [] [] [] [] []) [] ts_default None ts_default false false [].
Definition begin_gen (d : gdisk) : gstate :=
  GST (GD (gd_mt d) (gd_store d) (fun _ => None)) GIdle (GO [] []) None false [] false [].
Definition begin_process (files : list (string * list string)) (l : disks) (g : gdisks) : full :=
  FJ (PJ (map (fun x => (fst x, (fst (snd x), begin_target (snd (snd x))))) l) files [] None true (fun _ _ => None))
     (map (fun x => (fst x, begin_gen (snd (snd x)))) g) [].

(** The script up to (and with) Reg::Call(Args::Clean()).Func(clean_cb)
    (lib/args/include/args/register.h:77-83, 156-159: the callback is called at once):
    [a]: the arguments, [cwd]: the current directory. *)
Definition start_script (cwd : string) (a : args) (files : list (string * list string)) (l : disks) (g : gdisks)
  : outcome (Model_Targets.project * full) :=
  match reg_init false cwd a project_none with
  | Fatal => Fatal
  | Ok p =>
      Ok (p, if ar_clean a
             then begin_process files (clean_targets (pr_build p) l) (clean_gens (pr_build p) g)
             else begin_process files l g)
  end.
