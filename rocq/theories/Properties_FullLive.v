(** C118: a run of a program with targets and generators comes to an end, and
    succeeds if nothing goes wrong. *)
From Verif Require Import Prelude Proof_Prelude Model_Path Model_Schema Spec_Json Model_Command Model_Target Spec_Target Model_Gen Spec_Gen Proof_GenCase Spec_GenLive
  Model_Reg Spec_Reg Model_Project Spec_Project Proof_ProjectCase Spec_ProjectLive Proof_ProjectLiveCase Model_Full Spec_Full Proof_FullCase Spec_FullLive
  Proof_FullLive Proof_FullLiveCase.

(** Whatever happened before and however targets and generators were interleaved:
    as long as the executor has not returned, some builder can go on, without
    anything going wrong. ([files] lists what each generator may write, if only
    the empty list.) *)
Theorem C118_never_stuck : forall bd u8 mt0 l files gids evs h F w r x,
  (forall j, lawful (bd j)) -> fresh_full mt0 l gids -> incl gids (map fst files) ->
  fhistory Forward bd u8 mt0 l files gids evs h F -> p_run (f_proj F) = Some (w, r, x) ->
  ~ x_over w (rg_built r) (rg_edges r) x ->
  exists ev F', fgoes_well F ev /\ fcounted ev = true /\ fadmissible Forward bd F h ev /\ fstep u8 F ev = Some F'.
Proof. exact full_never_stuck. Qed.
Print Assumptions C118_never_stuck.

(** A run has a bounded number of steps: two for each registered builder, for each
    target whose Build() was called as many as it has sources, and six, and for
    each such generator two, and two for each of its ids. *)
Theorem C118_bounded : forall rg bd u8 mt0 l files gids pre w r run h F,
  (forall j, lawful (bd j)) -> fresh_full mt0 l gids ->
  fhistory rg bd u8 mt0 l files gids (pre ++ FP (PRun w r) :: run) h F -> Forall fundisturbed run ->
  length (filter fcounted run) <=
  2 * length (rg_built r) + list_sum (map (fun x => length (sources (snd x)) + 6) (p_built (f_proj F))) +
  list_sum (map (fun x => 2 + 2 * length (go_ids (snd x))) (f_objs F)).
Proof. exact full_bounded. Qed.
Print Assumptions C118_bounded.

(** So every run can be completed, from wherever it is. *)
Theorem C118_completes : forall bd u8 mt0 l files gids pre w r run h F,
  (forall j, lawful (bd j)) -> fresh_full mt0 l gids -> incl gids (map fst files) ->
  fhistory Forward bd u8 mt0 l files gids (pre ++ FP (PRun w r) :: run) h F -> Forall fundisturbed run ->
  exists more h' F' x', fhistory Forward bd u8 mt0 l files gids (pre ++ FP (PRun w r) :: run ++ more) h' F' /\
    fsmoothly Forward bd u8 mt0 l files gids (pre ++ FP (PRun w r) :: run) more /\
    p_run (f_proj F') = Some (w, r, x') /\ x_over w (rg_built r) (rg_edges r) x'.
Proof. exact full_completes. Qed.
Print Assumptions C118_completes.

(** If nothing goes wrong in the run (and the files needed that are not made by
    registered targets exist when a task starts), the task state is SUCCESS all
    the time, whatever went wrong in earlier runs. *)
Theorem C118_succeeds : forall rg bd u8 mt0 l files gids pre w r run h F,
  (forall j, lawful (bd j)) -> fresh_full mt0 l gids ->
  fhistory rg bd u8 mt0 l files gids (pre ++ FP (PRun w r) :: run) h F ->
  fsmoothly rg bd u8 mt0 l files gids (pre ++ [FP (PRun w r)]) run ->
  ffiles_there rg bd u8 mt0 l files gids r (pre ++ [FP (PRun w r)]) run ->
  (forall id e st c, In (id, (e, st)) (p_targets (f_proj F)) -> In (id, c) (p_built (f_proj F)) -> In id (rg_built r) -> usable e c) ->
  (forall h0 F0, fhistory rg bd u8 mt0 l files gids pre h0 F0 -> gens_usable u8 F0) ->
  p_ok (f_proj F) = true.
Proof.
  intros rg bd u8 mt0 l files gids pre w r run h F Lw Fr H S Fi U G.
  exact (proj1 (proj2 (full_succeeds rg bd u8 mt0 l files gids pre w r run Lw Fr h F H S Fi U G))).
Qed.
Print Assumptions C118_succeeds.

(** The program of C98 (a generator of a header, a library, an application, and a
    generator packing the library): the first run failed in the generator of the
    header; in the second one, targets and generators running side by side,
    everything goes well. *)
Definition beforeF : list fevent := registrationF ++ FP (PRun 3 regF) :: failing_runF ++ remaining_runF ++ editF.
Example C118_case : exists h F,
  fhistory Forward (fun _ => no_blobs) u80 files2 projF filesF gidsF (beforeF ++ FP (PRun 3 regF) :: second_runF) h F /\
  fresh_full files2 projF gidsF /\ (forall j : string, lawful ((fun _ => no_blobs) j)) /\ incl gidsF (map fst filesF) /\
  fsmoothly Forward (fun _ => no_blobs) u80 files2 projF filesF gidsF (beforeF ++ [FP (PRun 3 regF)]) second_runF /\
  ffiles_there Forward (fun _ => no_blobs) u80 files2 projF filesF gidsF regF (beforeF ++ [FP (PRun 3 regF)]) second_runF /\
  (forall id e st c, In (id, (e, st)) (p_targets (f_proj F)) -> In (id, c) (p_built (f_proj F)) -> In id (rg_built regF) -> usable e c) /\
  (forall h0 F0, fhistory Forward (fun _ => no_blobs) u80 files2 projF filesF gidsF beforeF h0 F0 -> gens_usable u80 F0) /\
  length (filter fcounted second_runF) = 26 /\
  2 * length (rg_built regF) + list_sum (map (fun x => length (sources (snd x)) + 6) (p_built (f_proj F))) +
    list_sum (map (fun x => 2 + 2 * length (go_ids (snd x))) (f_objs F)) = 30.
Proof.
  destruct (ffollow_case Forward u80 files2 projF filesF gidsF (beforeF ++ [FP (PRun 3 regF)]) (fun F => fsmoothb u80 F regF second_runF)) as (h0 & F0 & H0 & P0).
  { vm_compute. reflexivity. } { vm_compute. reflexivity. }
  destruct (fsmoothb_sound _ _ _ _ _ _ _ _ _ _ _ _ H0 P0) as [S1 S2].
  destruct (ffollow_case Forward u80 files2 projF filesF gidsF beforeF gens_usableb) as (h1 & F1 & H1 & P1).
  { vm_compute. reflexivity. } { vm_compute. reflexivity. }
  destruct (ffollow_case Forward u80 files2 projF filesF gidsF (beforeF ++ FP (PRun 3 regF) :: second_runF)
    (fun F => builtb (p_built (f_proj F)) && objs_eqb (f_objs F) [("gen", oGen); ("pack", oPack)])) as (h & F & H & P).
  { vm_compute. reflexivity. } { vm_compute. reflexivity. }
  apply andb_true_iff in P as [P P2]. apply objs_eqb_sound in P2.
  exists h, F. split; [exact H|]. split; [exact projF_fresh|]. split; [intros _; exact no_blobs_lawful|].
  split; [intros i [<-|[<-|[]]]; cbn; tauto|]. split; [exact S1|]. split; [exact S2|].
  split; [intros id e st c Hi Hb _; exact (all_usableF _ _ _ _ _ _ _ H P id e st c Hi Hb)|].
  split; [intros h2 F2 H2; destruct (fhistory_deterministic _ _ _ _ _ _ _ _ _ _ _ _ H1 H2) as [_ <-]; exact (gens_usableb_sound _ _ P1)|].
  split; [reflexivity|]. rewrite (builtb_sound _ P), P2. reflexivity.
Qed.

(** In the middle of the run that has failed: something can be done, and the run
    can be completed. *)
Example C118_case_failed : exists h F w r x,
  fhistory Forward (fun _ => no_blobs) u80 files2 projF filesF gidsF (registrationF ++ FP (PRun 3 regF) :: failing_runF) h F /\
  Forall fundisturbed failing_runF /\ p_run (f_proj F) = Some (w, r, x) /\ x_running x <> [] /\ p_ok (f_proj F) = false.
Proof.
  destruct (ffollow_case Forward u80 files2 projF filesF gidsF (registrationF ++ FP (PRun 3 regF) :: failing_runF)
    (fun F => negb (p_ok (f_proj F)) && match p_run (f_proj F) with Some (_, _, x) => match x_running x with [] => false | _ => true end | None => false end))
    as (h & F & H & P).
  { vm_compute. reflexivity. } { vm_compute. reflexivity. }
  apply andb_true_iff in P as [P2 P3]. apply negb_true_iff in P2.
  destruct (p_run (f_proj F)) as [[[w r] x]|] eqn:E; [|discriminate]. exists h, F, w, r, x. split; [exact H|].
  split; [apply fundisturbedb_sound; reflexivity|]. split; [exact E|]. split; [destruct (x_running x); discriminate|exact P2].
Qed.
