(** A described target used in the examples. *)
From Verif Require Import Prelude Model_Path Model_Json Model_Schema Model_Command Model_ToolchainConfig Model_Target
  Model_Sync Spec_Sync Model_Api Spec_Api Spec_Target Proof_Api Proof_TargetDup Proof_TargetCase.

Definition ls0 : listing := fun d =>
  if String.eqb d "/p/lib" then Some ["a.c"; "readme.md"; "b.s"]
  else if String.eqb d "/p/lib/." then Some ["b.s"; "a.c"]
  else if String.eqb d "/p/inc" then Some ["x.h"; "y.txt"]
  else None.
Definition ae0 : apienv := AE tconfig_default "/p" ls0.
Definition tf0 : tcflags := TF ["-DX"] [] [] [] [] ["-std=c11"] ["-std=c++17"] ["-s"].
Definition calls0 : list call :=
  [ AddSource "main.cpp" "src"; AddFlag FCpp "-O2"; GlobSources "lib"; AddIncludeDir "./inc/../inc" false;
    GlobHeadersAbsolute "/p/inc";
    AddLibDepTarget (TE "/q" "/b/libx" "x" ".a" tconfig_default "as" "gcc" "g++" "ar" "ld" "" "" "");
    AddLibDep "m"; AddLinkDependency "link.ld" ].

(** A toolchain that also compiles .cu files. *)
Definition tc_cu : tconfig := TC ".o" ".h" ".gch" "-I" "-L" [".c"] [".cpp"; ".cu"] [".s"] [".h"].

Lemma foreign_source :
  exists (a2 : apienv) (cs2 : list call) (u1 u2 : tschema),
    api_run ae0 (new_target tf0) [] = Ok u1 /\ api_run a2 (new_target tf0) cs2 = Ok u2 /\
    let u := fst (insert ByRef u1 u2 [SourceFiles]) in
    In "/p/k.cu" (sources (cfg_of u)) /\ is_valid_source (ae_tc ae0) "/p/k.cu" = false /\
    compile_command e0 (cfg_of u) "/p/k.cu" = FOk " -DX     -o /p/_b/t/k.cu.o -c /p/k.cu".
Proof.
  exists (AE tc_cu "/p" ls0), [AddSource "k.cu" ""], (new_target tf0).
  eexists. split; [reflexivity|]. split; [vm_compute; reflexivity|].
  cbv zeta. split; [vm_compute; auto|]. split; vm_compute; reflexivity.
Qed.

Lemma repeated_call_compiled (a : apienv) (t : tcflags) (cs : list call) (u : tschema) :
  api_run a (new_target t) cs = Ok u -> ~ NoDup (added a SourceFiles cs) ->
  forall (e : tenv) (st : tstate) (ord : list string) (run : list event) (st2 : tstate),
  exec e st (EvStart (cfg_of u) ord :: run) = Some st2 -> Forall own run -> s_pc st2 = Idle -> s_ok st2 = true ->
  exists l, s_log st2 = s_log st ++ l /\ (exists s cmd, In (XObj s cmd) l) /\ (exists cmd, In (XLink cmd) l).
Proof.
  intros H N e st ord run st2 X F P O.
  exact (repeated_source_compiled e st _ ord run st2 (described_repeated a t cs u H N) X F P O).
Qed.

Lemma described_distinct (a : apienv) (t : tcflags) (cs : list call) (u : tschema) :
  api_run a (new_target t) cs = Ok u -> NoDup (map fst (added a SourceFiles cs)) -> NoDup (sources (cfg_of u)).
Proof. intros H N. rewrite (described_sources a t cs u H). exact N. Qed.

Definition disk1 : disk :=
  DK (fun f => if mem_str f ["/p/lib/a.c"; "/p/lib/b.s"] then Some 1%N else None) None (fun _ => None) None None false (fun _ => false) false.
(** Two runs, nothing changed in between: the second compiles again. *)
Definition twice_built (c : cfg) : bool :=
  let ord := ["/p/lib/a.c"; "/p/lib/b.s"] in
  match exec e0 (init disk1) (full_run c ord ["/p/lib/a.c"; "/p/lib/b.s"; "/p/lib/a.c"] ++ full_run c ord ["/p/lib/a.c"]) with
  | Some st => s_ok st && Nat.eqb (length (s_log st)) 6 && match s_pc st with Idle => true | _ => false end
  | None => false
  end.
Lemma repeated_case : exists u, api_run ae0 (new_target tf0) [AddSource "a.c" "lib"; GlobSources "lib/."] = Ok u /\
  ~ NoDup (added ae0 SourceFiles [AddSource "a.c" "lib"; GlobSources "lib/."]) /\
  twice_built (cfg_of u) = true.
Proof.
  eexists. split; [vm_compute; reflexivity|]. split; [|vm_compute; reflexivity].
  change (added ae0 SourceFiles [AddSource "a.c" "lib"; GlobSources "lib/."])
    with [("/p/lib/a.c", Some ""); ("/p/lib/b.s", Some ""); ("/p/lib/a.c", Some "")].
  intros K. inversion K as [|x l A B]. apply A. right. left. reflexivity.
Qed.
