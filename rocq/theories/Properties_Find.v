(** C31, C49, C55, C56: searching for toolchains and host executables. *)
From Verif Require Import Prelude Model_Path Model_Util Model_Find Spec_Find Proof_Find.

(** A machine with two complete toolchain directories. *)
Definition w0 : world := WORLD
  (fun v => if String.eqb v "PATH" then Some "/none:/bin:/usr/bin:" else None)
  (fun d =>
     if String.eqb d "/bin" then DEntries [("as", true); ("gcc", true); ("g++", true); ("ar", true); ("ld", false)]
     else if String.eqb d "/usr/bin" then DEntries [("ld", true); ("as", true); ("gcc.txt", true); ("g++", true); ("sub", false); ("ar", true)]
     else if String.eqb d "/opt/tc" then DEntries [("g++", true); ("as", true); ("gcc", true); ("ar", true); ("ld", true); ("gcc-10.2", true)]
     else if String.eqb d "/root" then DUnreadable
     else DAbsent).
Definition gnu : exes := EXES "as" "gcc" "g++" "ar" "ld".
Definition cfg0 : find_config := FC ["PATH"] ["/root"; "/opt/tc"].

Lemma posix_w0 : posix w0.
Proof.
  split; [reflexivity|]. intros d entries f r D I. unfold w0 in D. cbn [w_dir] in D.
  repeat (match type of D with context [String.eqb d ?x] => destruct (String.eqb d x) end; [injection D as <-|]);
    try discriminate; try (destruct (String.eqb d "/root"); discriminate);
    cbn [In] in I; repeat (destruct I as [I|I]; [injection I as <- <-; repeat split; discriminate|]); destruct I.
Qed.

(** C31: exactly the directories with a regular file for each executable, in
    the order in which they were given; fatal iff a variable is not set. *)
Theorem C31_find_exact : forall (w : world) (e : exes) (c : find_config), posix w ->
  (dirs_to_search w c = None -> find w e c = Fatal) /\
  (forall dirs, dirs_to_search w c = Some dirs ->
     forall l, find w e c = Ok l <-> those (complete w e) l dirs).
Proof. exact find_exact. Qed.
Print Assumptions C31_find_exact.

(** Verify takes the first one, and leaves the executables alone unless the
    callback accepts it. *)
Theorem C31_verify_exact : forall (w : world) (cb : option (exes -> option info)) (e : exes) (c : find_config),
  match verify w cb e c with
  | (e', Ok i) => exists p l f i0, find w e c = Ok (p :: l) /\ cb = Some f /\ f e' = Some i0 /\
      e' = EXES (path_div p (x_as e)) (path_div p (x_c e)) (path_div p (x_cpp e)) (path_div p (x_ar e)) (path_div p (x_link e)) /\
      i = INFO p (i_version i0) (i_arch i0)
  | (e', Fatal) => e' = e /\
      forall p l f, find w e c = Ok (p :: l) -> cb = Some f ->
        f (EXES (path_div p (x_as e)) (path_div p (x_c e)) (path_div p (x_cpp e)) (path_div p (x_ar e)) (path_div p (x_link e))) = None
  end.
Proof. exact verify_exact. Qed.
Print Assumptions C31_verify_exact.

Example C31_case : posix w0 /\
  dirs_to_search w0 cfg0 = Some ["/root"; "/opt/tc"; "/none"; "/bin"; "/usr/bin"]%string /\
  find w0 gnu cfg0 = Ok ["/opt/tc"; "/usr/bin"]%string /\
  find w0 gnu (FC ["PATH"; "MISSING"] []) = Fatal /\
  verify w0 (Some (fun e => if String.eqb (x_c e) "/opt/tc/gcc" then Some (INFO "" "10.2" "x86") else None)) gnu cfg0
   = (EXES "/opt/tc/as" "/opt/tc/gcc" "/opt/tc/g++" "/opt/tc/ar" "/opt/tc/ld", Ok (INFO "/opt/tc" "10.2" "x86")) /\
  verify w0 (Some (fun _ => None)) gnu cfg0 = (gnu, Fatal).
Proof. split; [exact posix_w0|]. vm_compute. repeat split. Qed.

(** C55 is false: a directory is returned without holding the compiler ... *)
Theorem C55_not_an_executable_refuted : exists w e c d entries, posix w /\
  find w e c = Ok [d] /\ w_dir w d = DEntries entries /\ ~ In (x_c e) (map fst entries).
Proof.
  exists w0, gnu, (FC ["PATH"] []), "/usr/bin"%string. eexists. split; [exact posix_w0|]. split; [vm_compute; reflexivity|].
  split; [vm_compute; reflexivity|]. vm_compute. intros [H|[H|[H|[H|[H|[H|[]]]]]]]; discriminate.
Qed.
Print Assumptions C55_not_an_executable_refuted.

(** ... and an executable with a dot in its name is not found where it is. *)
Theorem C55_dotted_name_refuted : exists w e c d entries, posix w /\
  dirs_to_search w c = Some [d] /\ w_dir w d = DEntries entries /\
  (forall n, In n (names e) -> In (n, true) entries) /\ find w e c = Ok [].
Proof.
  exists w0, (EXES "as" "gcc-10.2" "g++" "ar" "ld"), (FC [] ["/opt/tc"]), "/opt/tc"%string. eexists.
  split; [exact posix_w0|]. split; [vm_compute; reflexivity|]. split; [vm_compute; reflexivity|]. split; [|vm_compute; reflexivity].
  cbn. intros n H. repeat (destruct H as [<-|H]; [tauto|]). destruct H.
Qed.
Print Assumptions C55_dotted_name_refuted.

(** The part that holds: with executables whose names have no dot, every
    directory that holds them all is found. *)
Theorem C55_complete_found_partial : forall (w : world) (e : exes) (c : find_config) (dirs l : list string), posix w ->
  dirs_to_search w c = Some dirs -> find w e c = Ok l ->
  (forall n, In n (names e) -> no_dot n) ->
  forall d entries, In d dirs -> w_dir w d = DEntries entries -> (forall n, In n (names e) -> In (n, true) entries) -> In d l.
Proof. exact complete_found. Qed.
Print Assumptions C55_complete_found_partial.

Example C55_case : forall n, In n (names gnu) -> no_dot n.
Proof. intros n H. cbn in H. repeat (destruct H as [<-|H]; [reflexivity|]). destruct H. Qed.

(** C56 is false: after a successful Verify every further Verify is fatal. *)
Theorem C56_verify_twice_refuted : forall w cb e c e' i w2 cb2 c2, posix w -> posix w2 ->
  verify w cb e c = (e', Ok i) -> verify w2 cb2 e' c2 = (e', Fatal).
Proof. exact verify_twice. Qed.
Print Assumptions C56_verify_twice_refuted.

Example C56_case : let cb := Some (fun _ : exes => Some (INFO "" "10.2" "x86")) in
  exists e' i, verify w0 cb gnu cfg0 = (e', Ok i) /\ verify w0 cb e' cfg0 = (e', Fatal).
Proof. eexists. eexists. split; vm_compute; reflexivity. Qed.

(** C49: one Search appends what the listed directories contain ... *)
Theorem C49_search_exact : forall (w : world) (rx : string -> string -> bool) (f : finder), f_type f = HostExecutable ->
  f_matches (fst (search w rx f)) = f_matches f ++ found w rx f /\
  (snd (search w rx f) = true <-> f_matches f ++ found w rx f <> []) /\
  f_regex (fst (search w rx f)) = f_regex f /\ f_env_vars (fst (search w rx f)) = f_env_vars f /\
  f_type (fst (search w rx f)) = HostExecutable.
Proof. exact search_exact. Qed.
Print Assumptions C49_search_exact.

(** ... where an entry is found iff it is in a readable directory of a set
    variable and its name matches ... *)
Theorem C49_found_iff : forall (w : world) (rx : string -> string -> bool) (f : finder) (p : string),
  In p (found w rx f) <->
  exists v s d entries n r, In v (f_env_vars f) /\ w_env w v = Some s /\ In d (split s ":"%char) /\
    w_dir w d = DEntries entries /\ In (n, r) entries /\ rx (f_regex f) n = true /\ p = path_div d n.
Proof. exact found_iff. Qed.
Print Assumptions C49_found_iff.

(** ... and repeated searches in a changing world only append. *)
Theorem C49_searches_append : forall (rx : string -> string -> bool) (ws : list world) (f : finder), f_type f = HostExecutable ->
  f_matches (searches rx f ws) = f_matches f ++ flat_map (fun w => found w rx f) ws.
Proof. intros rx ws f. exact (searches_append rx ws f). Qed.
Print Assumptions C49_searches_append.

(** Variables added after construction (AddHostEnvVar, AddHostEnvVars) are
    searched too, after those already there. *)
Theorem C49_added_variables : forall (w : world) (rx : string -> string -> bool) (f : finder) (vs : list string),
  f_type f = HostExecutable ->
  f_matches (fst (search w rx (fold_left add_env_var vs f))) =
  f_matches f ++ found w rx f ++ found w rx (FINDER (f_regex f) HostExecutable vs []).
Proof. exact added_variables. Qed.
Print Assumptions C49_added_variables.

Theorem C49_unsupported : forall (w : world) (rx : string -> string -> bool) (f : finder),
  f_type f <> HostExecutable -> search w rx f = (f, false).
Proof. exact search_unsupported. Qed.
Print Assumptions C49_unsupported.

Example C49_case :
  let f := FINDER "gcc" HostExecutable ["HOME"; "PATH"] [] in
  let rx := fun re s => String.eqb re s || String.eqb s "gcc.txt" in
  search w0 rx f = (FINDER "gcc" HostExecutable ["HOME"; "PATH"] ["/bin/gcc"; "/usr/bin/gcc.txt"], true) /\
  f_matches (searches rx f [w0; w0]) = ["/bin/gcc"; "/usr/bin/gcc.txt"; "/bin/gcc"; "/usr/bin/gcc.txt"]%string /\
  snd (search w0 (fun _ _ => false) f) = false /\
  f_matches (fst (search w0 rx (add_env_var (FINDER "gcc" HostExecutable ["HOME"] []) "PATH"))) = ["/bin/gcc"; "/usr/bin/gcc.txt"]%string /\
  f_type f = HostExecutable /\ f_type (FINDER "x" BuildccPlugin [] []) <> HostExecutable.
Proof. vm_compute. repeat split. discriminate. Qed.
