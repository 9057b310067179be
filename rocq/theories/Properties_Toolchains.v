(** C67-C71: toolchains created by id. *)
From Verif Require Import Prelude Model_Path Model_Util Model_Command Model_ToolchainConfig Model_Find Model_Storage Model_Toolchains
  Spec_Shell Spec_Find Spec_Toolchains Proof_Toolchains.

(** C67: a toolchain is created iff its id can be created and its name is free;
    otherwise the process ends. *)
Theorem C67_created_iff : forall (s : tstore) (id : toolchain_id) (name : string) (op_e : option exes) (op_c : option tconfig),
  (exists obj, snd (generic_new s id name op_e op_c) = Ok obj) <->
  creatable id op_e /\ s_contains (o_storage s) name = false.
Proof. exact created_iff. Qed.
Print Assumptions C67_created_iff.

(** It is the toolchain asked for, whatever else is stored before and after;
    it is found under its name ... *)
Theorem C67_created_as_asked : forall before id name op_e op_c after s,
  store_run store_empty (before ++ ONew id name op_e op_c :: after) = Some s -> existsb is_clear after = false ->
  exists obj t, s_ref (o_storage s) name (class_name (class_of_id id)) = Ok obj /\ object s obj t /\
    k_id t = id /\ k_name t = name /\ k_exes t = tools id op_e /\ k_config t = usual_config id.
Proof. exact created_as_asked. Qed.
Print Assumptions C67_created_as_asked.

(** ... but only as a toolchain of its class, and no other toolchain can take the
    name. *)
Theorem C67_other_class_refused : forall before id name op_e op_c after s c,
  store_run store_empty (before ++ ONew id name op_e op_c :: after) = Some s -> existsb is_clear after = false ->
  c <> class_name (class_of_id id) -> s_ref (o_storage s) name c = Fatal.
Proof. exact created_other_class. Qed.
Print Assumptions C67_other_class_refused.

Theorem C67_name_taken : forall before id name op_e op_c after id2 op_e2 op_c2, existsb is_clear after = false ->
  store_run store_empty (before ++ ONew id name op_e op_c :: after ++ [ONew id2 name op_e2 op_c2]) = None.
Proof. exact name_taken. Qed.
Print Assumptions C67_name_taken.

Definition clang : exes := EXES "llvm-as" "clang" "clang++" "llvm-ar" "ld".
Definition history0 : list store_op := [ONew Gcc "gcc" None None; OAdd "tool" "PersonalType"; OClear; ONew Gcc "gcc" None None].
Definition history1 : list store_op := [ONew Msvc "msvc" None None; OAdd "clang_llvm" "PersonalType"; ONew MinGW "mingw" (Some clang) None].
Definition stored (l : list store_op) : option storage := option_map o_storage (store_run store_empty l).
Lemma stored_some l : match stored l with Some _ => True | None => False end -> exists s, store_run store_empty l = Some s.
Proof. unfold stored. destruct (store_run store_empty l) as [s|]; [exists s; reflexivity|intros []]. Qed.
Example C67_case : 
  (exists s, store_run store_empty (history0 ++ ONew Clang "clang_llvm" (Some clang) None :: history1) = Some s) /\
  existsb is_clear history1 = false /\
  option_map (fun st => (s_ref st "clang_llvm" "Toolchain_custom", s_ref st "gcc" "Toolchain_gcc", s_ref st "msvc" "Toolchain_msvc"))
    (stored (history0 ++ ONew Clang "clang_llvm" (Some clang) None :: history1)) = Some (Ok 3, Ok 2, Ok 4) /\
  option_map (fun st => s_ref st "clang_llvm" "Toolchain_gcc")
    (stored (history0 ++ ONew Clang "clang_llvm" (Some clang) None :: history1)) = Some Fatal /\
  stored [ONew Clang "clang_llvm" None None] = None /\ stored [ONew UndefinedId "x" (Some clang) None] = None.
Proof.
  split; [apply stored_some; vm_compute; exact Logic.I|]. repeat (split; [vm_compute; reflexivity|]). vm_compute. reflexivity.
Qed.

(** C68 is false: a configuration given for the toolchain is not used: a source
    file it accepts is refused. *)
Theorem C68_config_used_refuted : exists id name op_e c s obj t source,
  generic_new store_empty id name op_e (Some c) = (s, Ok obj) /\ object s obj t /\
  is_valid_source c source = true /\ is_valid_source (k_config t) source = false.
Proof.
  exists Gcc, "gcc"%string, None, (TC ".o" ".h" ".gch" "-I" "-L" [".c"] [".cpp"; ".cu"] [] [".h"]).
  eexists. exists 0, (asked Gcc "gcc" None), "kernel.cu"%string. split; [reflexivity|]. split; [|split; reflexivity].
  split; [left; reflexivity|]. intros t' [E|[]]. injection E as <-. reflexivity.
Qed.
Print Assumptions C68_config_used_refuted.

(** Whatever is given, the configuration is that of the id: proved for callers that
    leave it out or give just that one. *)
Theorem C68_usual_config_partial : forall before id name op_e after s,
  store_run store_empty (before ++ ONew id name op_e (Some (usual_config id)) :: after) = Some s -> existsb is_clear after = false ->
  exists obj t, s_ref (o_storage s) name (class_name (class_of_id id)) = Ok obj /\ object s obj t /\ k_config t = usual_config id.
Proof.
  intros before id name op_e after s H C. destruct (created_as_asked _ _ _ _ _ _ _ H C) as (obj & t & A & B & _ & _ & _ & D).
  exists obj, t. auto.
Qed.
Print Assumptions C68_usual_config_partial.

Example C68_case :
  (exists s, store_run store_empty (history0 ++ ONew Msvc "vs" None (Some (usual_config Msvc)) :: [OAdd "vs" "X"]) = Some s) /\
  usual_config Msvc <> usual_config Gcc.
Proof. split; [apply stored_some; vm_compute; exact Logic.I|discriminate]. Qed.

(** C69 is false: a toolchain selected on the command line by its id and name only
    has no executables and can never be verified ... *)
Theorem C69_default_tools_refuted : exists id name s obj t,
  construct_from_args store_empty (AT id name (a_exes arg_default) (a_config arg_default)) = (s, Ok obj) /\ object s obj t /\
  k_exes t <> usual_tools id /\
  forall w h c, posix w -> snd (verify_toolchain w h t c) = Fatal.
Proof.
  exists Gcc, "gcc"%string. eexists. exists 0. eexists. split; [reflexivity|]. split.
  - split; [left; reflexivity|]. intros t' [E|[]]. injection E as <-. reflexivity.
  - split; [discriminate|]. intros w h c P. apply empty_never_verified; [exact P|reflexivity].
Qed.
Print Assumptions C69_default_tools_refuted.

(** ... if all are named they are used. *)
Theorem C69_named_tools_partial : forall before a after s,
  store_run store_empty (before ++ ONew (a_id a) (a_name a) (Some (a_exes a)) (Some (a_config a)) :: after) = Some s ->
  existsb is_clear after = false ->
  (forall s0, store_run store_empty before = Some s0 -> exists obj, snd (construct_from_args s0 a) = Ok obj) /\
  exists obj t, s_ref (o_storage s) (a_name a) (class_name (class_of_id (a_id a))) = Ok obj /\ object s obj t /\
    k_id t = a_id a /\ k_exes t = a_exes a.
Proof.
  intros before a after s H C. split.
  - intros s0 E. rewrite store_run_app, E in H. cbn [store_run store_step] in H. unfold construct_from_args.
    destruct (generic_new s0 (a_id a) (a_name a) (Some (a_exes a)) (Some (a_config a))) as [s1 [obj|]]; [|discriminate].
    exists obj. reflexivity.
  - destruct (created_as_asked _ _ _ _ _ _ _ H C) as (obj & t & A & B & D & _ & E & _). exists obj, t. auto.
Qed.
Print Assumptions C69_named_tools_partial.

Example C69_case : exists s, store_run store_empty (history0 ++ ONew Custom "cc" (Some clang) (Some tconfig_default) :: history1) = Some s.
Proof. apply stored_some. vm_compute. exact Logic.I. Qed.

(** C70, C71: Verify of a gcc, mingw or clang toolchain reports the first
    directory that holds the tools, and what the compiler in it answers. The
    compiler is run as [compiler -dumpversion] and [compiler -dumpmachine], proved
    if its path has no blanks or other characters special to the shell; the
    answers are the first pieces of the outputs. *)
Theorem C71_verify_asks_compiler_partial : forall w h id name op_e op_c c t' i, gnu_like id -> posix w ->
  verify_toolchain w h (construct_toolchain id name (tools id op_e) op_c) c = (t', Ok i) ->
  exists dirs l, dirs_to_search w c = Some dirs /\ those (complete w (tools id op_e)) (i_path i :: l) dirs /\
    k_exes t' = create_executables (i_path i) (tools id op_e) /\
    (plain_word (x_cpp (k_exes t')) ->
     exists c1 c2 v vr a ar,
       shell_words c1 = Some [x_cpp (k_exes t'); "-dumpversion"] /\ shell_words c2 = Some [x_cpp (k_exes t'); "-dumpmachine"] /\
       h_run h c1 = Some (v :: vr) /\ h_run h c2 = Some (a :: ar) /\ i_version i = v /\ i_arch i = a).
Proof. exact verify_asks_compiler. Qed.
Print Assumptions C71_verify_asks_compiler_partial.

Definition dirs_of (d : string) : world := WORLD (fun _ => None)
  (fun p => if String.eqb p d then DEntries [("as", true); ("gcc", true); ("g++", true); ("ar", true); ("ld", true)] else DAbsent).
Lemma posix_dirs_of d : d <> ""%string -> posix (dirs_of d).
Proof.
  intros N. split.
  - unfold dirs_of. cbn [w_dir]. destruct (String.eqb "" d) eqn:E; [|reflexivity]. apply String.eqb_eq in E. congruence.
  - intros p entries f r H I. unfold dirs_of in H. cbn [w_dir] in H. destruct (String.eqb p d); [|discriminate]. injection H as <-.
    cbn [In] in I. repeat (destruct I as [I|I]; [injection I as <- <-; repeat split; discriminate|]). destruct I.
Qed.

(** A shell: a command is run if its first word is the compiler. *)
Definition answers (compiler : string) (version machine : list string) : host := HOST
  (fun cmd => match shell_words cmd with
              | Some [x; f] =>
                  if String.eqb x compiler then
                    if String.eqb f "-dumpversion" then Some version else if String.eqb f "-dumpmachine" then Some machine else None
                  else None
              | _ => None
              end) (fun _ => None).
Example C71_case :
  posix (dirs_of "/opt/bin") /\ gnu_like Gcc /\
  (let r := verify_toolchain (dirs_of "/opt/bin") (answers "/opt/bin/g++" ["10"] ["x86_64"]) (construct_toolchain Gcc "gcc" gnu_exes None) (FC [] ["/usr"; "/opt/bin"]) in
   (k_exes (fst r), snd r)) = (EXES "/opt/bin/as" "/opt/bin/gcc" "/opt/bin/g++" "/opt/bin/ar" "/opt/bin/ld", Ok (INFO "/opt/bin" "10" "x86_64")) /\
  plain_word "/opt/bin/g++".
Proof. split; [apply posix_dirs_of; discriminate|]. split; [left; reflexivity|]. split; [vm_compute; reflexivity|]. repeat split; discriminate. Qed.

(** An msvc toolchain is verified without running its compiler: what is reported
    comes from the variables of the developer prompt, all of which must be set. *)
Theorem C71_msvc_environment_partial : forall w h name op_e op_c c t' i, posix w ->
  verify_toolchain w h (construct_toolchain Msvc name (tools Msvc op_e) op_c) c = (t', Ok i) ->
  exists dirs l host target, dirs_to_search w c = Some dirs /\ those (complete w (tools Msvc op_e)) (i_path i :: l) dirs /\
    k_exes t' = create_executables (i_path i) (tools Msvc op_e) /\
    h_env h "VSCMD_VER" = Some (i_version i) /\ h_env h "VSCMD_ARG_HOST_ARCH" = Some host /\
    h_env h "VSCMD_ARG_TGT_ARCH" = Some target /\ i_arch i = host +++ "_" +++ target.
Proof. exact verify_msvc. Qed.
Print Assumptions C71_msvc_environment_partial.
Example C71_msvc_case :
  snd (verify_toolchain (WORLD (fun _ => None) (fun p => if String.eqb p "/vc" then DEntries [("cl.exe", true); ("lib.exe", true); ("link.exe", true)] else DAbsent))
    (HOST (fun _ => None) (fun v => if String.eqb v "VSCMD_VER" then Some "16.9" else if String.eqb v "VSCMD_ARG_HOST_ARCH" then Some "x64"
                                    else if String.eqb v "VSCMD_ARG_TGT_ARCH" then Some "x86" else None)%string)
    (construct_toolchain Msvc "vs" (tools Msvc None) None) (FC [] ["/vc"%string])) = Ok (INFO "/vc" "16.9" "x64_x86").
Proof. vm_compute. reflexivity. Qed.

(** C71 is false in general: with a blank in the directory another command is run,
    and a complete, working toolchain is not verified. *)
Theorem C71_blank_in_path_refuted : exists d version machine, posix (dirs_of d) /\
  find (dirs_of d) (usual_tools Gcc) (FC [] [d]) = Ok [d] /\
  snd (verify_toolchain (dirs_of d) (answers (path_div d "g++") version machine) (construct_toolchain Gcc "gcc" gnu_exes None) (FC [] [d])) = Fatal.
Proof. exists "/opt/my tools"%string, ["10"%string], ["x86_64"%string]. split; [apply posix_dirs_of; discriminate|]. split; vm_compute; reflexivity. Qed.
Print Assumptions C71_blank_in_path_refuted.

(** C70 is false: the version depends on how the output is cut into pieces on its
    way, not just on what the compiler printed. *)
Theorem C70_output_only_refuted : exists w h1 h2 c t i1 i2, posix w /\ same_output h1 h2 /\
  snd (verify_toolchain w h1 t c) = Ok i1 /\ snd (verify_toolchain w h2 t c) = Ok i2 /\ i_version i1 <> i_version i2.
Proof.
  exists (dirs_of "/opt/bin"), (answers "/opt/bin/g++" ["10.2.1"%string] ["x86_64"%string]), (answers "/opt/bin/g++" ["10"%string; ".2.1"%string] ["x86_64"%string]),
    (FC [] ["/opt/bin"%string]), (construct_toolchain Gcc "gcc" gnu_exes None), (INFO "/opt/bin" "10.2.1" "x86_64"), (INFO "/opt/bin" "10" "x86_64").
  split; [apply posix_dirs_of; discriminate|]. split.
  - split; [reflexivity|]. intros cmd. unfold answers. cbn [h_run]. destruct (shell_words cmd) as [[|x [|f [|? ?]]]|]; try reflexivity.
    destruct (String.eqb x "/opt/bin/g++"); [|reflexivity]. destruct (String.eqb f "-dumpversion"); [reflexivity|].
    destruct (String.eqb f "-dumpmachine"); reflexivity.
  - split; [vm_compute; reflexivity|]. split; [vm_compute; reflexivity|]. discriminate.
Qed.
Print Assumptions C70_output_only_refuted.

(** If every output arrives in one piece, the version and the architecture are
    what the compiler printed (with the line feed at the end). *)
Theorem C70_whole_output_partial : forall w h id name op_e op_c c t' i, gnu_like id -> posix w ->
  (forall cmd out, h_run h cmd = Some out -> List.length out <= 1) ->
  verify_toolchain w h (construct_toolchain id name (tools id op_e) op_c) c = (t', Ok i) -> plain_word (x_cpp (k_exes t')) ->
  exists c1 c2,
    shell_words c1 = Some [x_cpp (k_exes t'); "-dumpversion"] /\ shell_words c2 = Some [x_cpp (k_exes t'); "-dumpmachine"] /\
    option_map printed (h_run h c1) = Some (i_version i) /\ option_map printed (h_run h c2) = Some (i_arch i).
Proof. exact whole_output. Qed.
Print Assumptions C70_whole_output_partial.

Example C70_case :
  let h := answers "/opt/bin/g++" ["10.2.1"%string] ["x86_64"%string] in
  (forall cmd out, h_run h cmd = Some out -> List.length out <= 1) /\
  snd (verify_toolchain (dirs_of "/opt/bin") h (construct_toolchain Gcc "gcc" gnu_exes None) (FC [] ["/opt/bin"%string])) = Ok (INFO "/opt/bin" "10.2.1" "x86_64").
Proof.
  split; [|vm_compute; reflexivity]. intros cmd out H. unfold answers in H. cbn [h_run] in H.
  destruct (shell_words cmd) as [[|x [|f [|? ?]]]|]; try discriminate. destruct (String.eqb x "/opt/bin/g++"); [|discriminate].
  destruct (String.eqb f "-dumpversion"); [injection H as <-; cbn; lia|]. destruct (String.eqb f "-dumpmachine"); [injection H as <-; cbn; lia|discriminate].
Qed.
