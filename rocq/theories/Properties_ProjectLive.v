(** C116: a run of a whole program comes to an end, and succeeds if nothing goes wrong. *)
From Verif Require Import Prelude Proof_Prelude Model_Path Model_Schema Spec_Json Model_Command Model_Target Spec_Target Model_Reg Spec_Reg
  Model_Project Spec_Project Spec_ProjectLive Proof_ProjectLive Proof_TargetCase Proof_ProjectCase Proof_ProjectLiveCase.

(** Whatever happened before and however the builders were interleaved: as long as
    the executor has not returned, some builder can go on, without anything going
    wrong. In the regime [Quiet] (state files are always written) the strings of
    the options must be UTF-8, otherwise the state file cannot be. *)
Theorem C116_never_stuck : forall rg mt0 l gens evs h p w r x,
  fresh_project mt0 l -> phistory rg l gens evs h p -> p_run p = Some (w, r, x) ->
  rg = Forward \/ (forall id c, In (id, c) (p_built p) -> Forall valid_utf8 (target_strings (user_of c))) ->
  ~ x_over w (rg_built r) (rg_edges r) x ->
  exists ev p', goes_well p ev /\ counted ev = true /\ padmissible rg p h ev /\ pstep p ev = Some p'.
Proof. exact always_a_step. Qed.
Print Assumptions C116_never_stuck.

(** A run has a bounded number of steps, besides the writes and reported failures
    of generators: two for each registered builder, and for each target whose
    Build() was called as many as it has sources, and six. *)
Theorem C116_bounded : forall rg mt0 l gens pre w r run h p,
  fresh_project mt0 l -> phistory rg l gens (pre ++ PRun w r :: run) h p -> Forall undisturbed_run run ->
  length (filter counted run) <=
  2 * length (rg_built r) + list_sum (map (fun x => length (sources (snd x)) + 6) (p_built p)).
Proof. exact whole_run_bounded. Qed.
Print Assumptions C116_bounded.

(** So every run can be completed, from wherever it is. *)
Theorem C116_completes : forall rg mt0 l gens pre w r run h p,
  fresh_project mt0 l -> phistory rg l gens (pre ++ PRun w r :: run) h p -> Forall undisturbed_run run ->
  rg = Forward \/ (forall id c, In (id, c) (p_built p) -> Forall valid_utf8 (target_strings (user_of c))) ->
  exists more h' p' x', phistory rg l gens (pre ++ PRun w r :: run ++ more) h' p' /\
    smoothly rg l gens (pre ++ PRun w r :: run) more /\
    p_run p' = Some (w, r, x') /\ x_over w (rg_built r) (rg_edges r) x'.
Proof. exact run_completes. Qed.
Print Assumptions C116_completes.

(** If nothing goes wrong in the run (and the tracked files that are not made by
    registered targets exist when they are needed), the task state is SUCCESS all
    the time, whatever went wrong in earlier runs. *)
Theorem C116_succeeds : forall rg mt0 l gens pre w r run h p,
  fresh_project mt0 l -> phistory rg l gens (pre ++ PRun w r :: run) h p ->
  smoothly rg l gens (pre ++ [PRun w r]) run -> files_there rg l gens r (pre ++ [PRun w r]) run ->
  (forall id e st c, In (id, (e, st)) (p_targets p) -> In (id, c) (p_built p) -> In id (rg_built r) -> usable e c) ->
  p_ok p = true.
Proof. intros rg mt0 l gens pre w r run h p F H S Fi U. exact (proj1 (proj2 (smooth_run_succeeds rg mt0 l gens pre w r run F h p H S Fi U))). Qed.
Print Assumptions C116_succeeds.

(** The program of C92: its first run failed (the library did not compile); the
    second one goes well. *)
Definition bad_run : list pevent :=
  gen_steps 2 ++ [PBegin "lib"; PStep "lib" EvObjCheck None; PStep "lib" (EvCompile "/p/l.cpp" (XFail None)) None;
   PStep "lib" EvLinkCheck None; PStep "lib" (EvEnd WOk) None; PEnd "lib" false;
   PBegin "app"; PStep "app" EvObjCheck None; PStep "app" EvLinkCheck None; PStep "app" (EvEnd WOk) None; PEnd "app" false].
Definition good_run : list pevent := gen_idle ++ build_steps "lib" "/p/l.cpp" true 6 ++ build_steps "app" "/p/a.cpp" true 7.
Definition before_it : list pevent := registration ++ PRun 2 reg1 :: bad_run ++ edit_lib.
Example C116_case : exists h p,
  phistory Forward proj gens1 (before_it ++ PRun 2 reg1 :: good_run) h p /\ fresh_project files1 proj /\
  smoothly Forward proj gens1 (before_it ++ [PRun 2 reg1]) good_run /\
  files_there Forward proj gens1 reg1 (before_it ++ [PRun 2 reg1]) good_run /\
  (forall id e st c, In (id, (e, st)) (p_targets p) -> In (id, c) (p_built p) -> In id (rg_built reg1) -> usable e c) /\
  length (filter counted good_run) = 16 /\
  2 * length (rg_built reg1) + list_sum (map (fun x => length (sources (snd x)) + 6) (p_built p)) = 20.
Proof.
  destruct (pfollow_case Forward proj gens1 (before_it ++ [PRun 2 reg1]) (fun p => smoothb p reg1 good_run)) as (h0 & p0 & H0 & P0).
  { vm_compute. reflexivity. }
  destruct (smoothb_sound _ _ _ _ _ _ _ _ H0 P0) as [S1 S2].
  destruct (pfollow_case Forward proj gens1 (before_it ++ PRun 2 reg1 :: good_run) (fun p => builtb (p_built p))) as (h & p & H & P).
  { vm_compute. reflexivity. }
  exists h, p. split; [exact H|]. split; [exact proj_fresh|]. split; [exact S1|]. split; [exact S2|].
  split; [intros id e st c Hi Hb _; exact (all_usable _ _ _ _ H P id e st c Hi Hb)|]. split; [reflexivity|].
  rewrite (builtb_sound _ P). reflexivity.
Qed.

(** A tracked file that neither exists nor is made by a target makes the run fail:
    the generator reports success without having written its header. *)
Definition no_header_run : list pevent :=
  gen_idle ++ build_steps "lib" "/p/l.cpp" true 3 ++
  [PBegin "app"; PStep "app" EvObjCheck None; PStep "app" EvLinkCheck None; PStep "app" (EvEnd WOk) None; PEnd "app" false].
Example C116_missing_file : exists h p,
  phistory Forward proj gens1 (registration ++ PRun 2 reg1 :: no_header_run) h p /\ overb p = true /\ p_ok p = false /\
  forallb (fun ev => match ev with PStep _ (EvCompile _ (XFail _) | EvLinkExec (XFail _)) _ | PFail _ => false | _ => true end) no_header_run = true.
Proof.
  destruct (pfollow_case Forward proj gens1 (registration ++ PRun 2 reg1 :: no_header_run) (fun p => overb p && negb (p_ok p))) as (h & p & H & P).
  { vm_compute. reflexivity. }
  apply andb_true_iff in P as [P1 P2]. apply negb_true_iff in P2. exists h, p. repeat split; assumption.
Qed.

(** In the middle of a run that has failed already (and in the regime [Quiet]):
    something can be done, and the run can be completed. *)
Example C116_case_failed : exists h p w r x,
  phistory Quiet proj gens1 (registration ++ PRun 2 reg1 :: firstn 6 bad_run) h p /\ Forall undisturbed_run (firstn 6 bad_run) /\
  p_run p = Some (w, r, x) /\ x_running x <> [] /\ p_ok p = false /\
  (forall id c, In (id, c) (p_built p) -> Forall valid_utf8 (target_strings (user_of c))).
Proof.
  destruct (pfollow_case Quiet proj gens1 (registration ++ PRun 2 reg1 :: firstn 6 bad_run)
    (fun p => builtb (p_built p) && negb (p_ok p) && match p_run p with Some (_, _, x) => match x_running x with [] => false | _ => true end | None => false end))
    as (h & p & H & P).
  { vm_compute. reflexivity. }
  apply andb_true_iff in P as [P P3]. apply andb_true_iff in P as [P1 P2]. apply negb_true_iff in P2.
  destruct (p_run p) as [[[w r] x]|] eqn:E; [|discriminate]. exists h, p, w, r, x. split; [exact H|]. split; [repeat constructor|].
  split; [exact E|]. split; [destruct (x_running x); discriminate|]. split; [exact P2|].
  intros id c Hb. rewrite (builtb_sound _ P1) in Hb. destruct Hb as [Hb|[Hb|[]]]; injection Hb as _ <-; [exact (proj2 usable_lib)|exact (proj2 usable_app)].
Qed.
