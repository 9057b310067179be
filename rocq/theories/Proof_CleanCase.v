(** --clean: concrete programs. *)
From Verif Require Import Prelude Proof_Prelude Model_Path Spec_Path Proof_Path Model_Schema Model_Command Model_ToolchainConfig Model_Target Spec_Target Proof_TargetCase
  Model_Gen Spec_Gen Proof_GenInv Proof_GenCase Model_Reg Spec_Reg Proof_Reg Model_Project Spec_Project Proof_ProjectCase Model_Full Spec_Full Proof_FullCase
  Model_Toolchains Model_Targets Spec_Targets Model_Args Spec_Args Model_Clean Spec_Clean Proof_Clean.

Lemma ffollow_since rg u8 mt l F0 evs : forall pre h F h' F', forallb plain evs = true ->
  since rg (fun _ => no_blobs) u8 mt l F0 pre h F -> ffollow rg u8 h F evs = Some (h', F') ->
  since rg (fun _ => no_blobs) u8 mt l F0 (pre ++ evs) h' F'.
Proof.
  induction evs as [|ev evs IH]; intros pre h F h' F' Pl H X; cbn [ffollow forallb] in *.
  - injection X as <- <-. rewrite app_nil_r. exact H.
  - apply andb_true_iff in Pl as [P1 P2]. destruct (fadmissibleb rg F h ev) eqn:A; [|discriminate]. destruct (fstep u8 F ev) as [F1|] eqn:S; [|discriminate].
    assert (A' : fadmissible rg (fun _ => no_blobs) F h ev).
    { apply (fadmissibleb_sound _ _ u8 _ _ _ F1); [| |exact A|exact S].
      - intros i o ->. apply handlerless_follows. exact P1.
      - intros i o ->. discriminate. }
    specialize (IH _ _ _ _ _ P2 (since_snoc _ _ _ _ _ _ _ _ _ _ _ H A' S) X). rewrite <- app_assoc in IH. exact IH.
Qed.
Lemma since_case rg u8 mt l F0 evs (P : full -> bool) : forallb plain evs = true ->
  match ffollow rg u8 (fhist0 mt l) F0 evs with Some (_, F) => P F | None => false end = true ->
  exists h F, since rg (fun _ => no_blobs) u8 mt l F0 evs h F /\ P F = true.
Proof.
  intros Pl H. destruct (ffollow rg u8 (fhist0 mt l) F0 evs) as [[h F]|] eqn:E; [|discriminate].
  exists h, F. split; [|exact H]. exact (ffollow_since rg u8 mt l F0 evs [] _ _ h F Pl (since_nil _ _ _ _ _ _) E).
Qed.

(** What the program of C98 leaves behind after its first run, except that the
    user has deleted the application. *)
Definition all_made : full := match fexec u80 (finit files2 projF filesF gidsF) (registrationF ++ FP (PRun 2 regF) :: first_runF) with Some F => F | None => finit files2 projF filesF gidsF end.
Definition damage (m : times) : times := fun f => if String.eqb f (out_file e0) then None else m f.
Definition left_times_of (F : full) : times := damage (match p_targets (f_proj F) with (_, (_, st)) :: _ => d_mt (s_disk st) | [] => files2 end).
Definition left_disk (m : times) (id : string) (d : disk) : disk :=
  DK m (d_pch d) (d_obj d) (if String.eqb id "app" then None else d_tgt d) (d_store d) (d_pch_bad d) (d_obj_bad d) (d_tgt_bad d).
Definition left_targets_of (F : full) : disks :=
  map (fun x => (fst x, (fst (snd x), left_disk (left_times_of F) (fst x) (s_disk (snd (snd x)))))) (p_targets (f_proj F)).
Definition left_gens_of (F : full) : gdisks :=
  map (fun x => (fst x, (generator_state_file (env_absolute "/p" "/p/_b") (fst x), GD (left_times_of F) (gd_store (g_disk (snd x))) (gd_made (g_disk (snd x)))))) (f_gens F).
Lemma left_in_build_dir_of F : map (fun x => (fst x, fst (snd x))) (p_targets (f_proj F)) = [("lib", eL); ("app", e0)] ->
  map fst (f_gens F) = ["gen"; "pack"] -> in_build_dir "/p/_b" (left_times_of F) (left_targets_of F) (left_gens_of F).
Proof.
  intros E G.
  assert (I1 : map fst (left_targets_of F) = ["lib"; "app"]).
  { unfold left_targets_of. rewrite map_map. cbn [fst]. apply (f_equal (map fst)) in E. rewrite map_map in E. exact E. }
  assert (I2 : map fst (left_gens_of F) = ["gen"; "pack"]) by (unfold left_gens_of; rewrite map_map; exact G).
  split; [rewrite I1; repeat constructor; cbn; intuition discriminate|]. split.
  { apply (f_equal (map (fun x => out_file (snd x)))) in E. rewrite map_map in E. unfold left_targets_of. rewrite map_map. cbn [fst snd] in *. rewrite E.
    vm_compute. repeat constructor; cbn; intuition discriminate. }
  split.
  { intros id e d H. unfold left_targets_of in H. apply in_map_iff in H as ([i [e' st]] & K & H). cbn [fst snd] in K.
    apply pair_equal_spec in K as [<- K]. apply pair_equal_spec in K as [<- <-].
    apply (in_map (fun x => (fst x, fst (snd x)))) in H. rewrite E in H. cbn [fst snd In] in H.
    destruct H as [H|[H|[]]]; apply pair_equal_spec in H as [<- <-];
      (split; [apply templates_okb; vm_compute; reflexivity|]); (split; [reflexivity|]); split; apply removes_spec; vm_compute; reflexivity. }
  split; [rewrite I2; repeat constructor; cbn; intuition discriminate|]. split.
  { intros j H. rewrite I2 in H. rewrite I1. destruct H as [<-|[<-|[]]]; cbn; intuition discriminate. }
  intros j file d H. unfold left_gens_of in H. apply in_map_iff in H as ([i g] & K & H). cbn [fst snd] in K.
  apply pair_equal_spec in K as [<- K]. apply pair_equal_spec in K as [<- <-]. split; [reflexivity|].
  apply (in_map fst) in H. rewrite G in H. cbn [fst] in H. destruct H as [<-|[<-|[]]]; apply removes_spec; vm_compute; reflexivity.
Qed.
Definition left_times : times := left_times_of all_made.
Definition left_targets : disks := left_targets_of all_made.
Definition left_gens : gdisks := left_gens_of all_made.
Lemma left_in_build_dir : in_build_dir "/p/_b" left_times left_targets left_gens.
Proof. apply left_in_build_dir_of; vm_compute; reflexivity. Qed.

(** The command line: [--clean] or not, and the build directory. *)
Definition line_clean (clean : bool) (build : string) : line :=
  LN false (Some clean) None (Some "") (Some build) (fun _ => no_tool) (fun _ => no_target).
Definition args_clean (clean : bool) (build : string) : args :=
  match args_run args_start (session [] (line_clean clean build)) with Some a => a | None => args_start end.
Lemma args_clean_run clean build : args_run args_start (session [] (line_clean clean build)) = Some (args_clean clean build).
Proof. reflexivity. Qed.

(** Another run: nothing seems to have changed. *)
Definition idle_runF : list fevent :=
  gidle_steps "gen" "H" ++ map FP (idle_steps "lib") ++ gidle_steps "pack" "P" ++ map FP (idle_steps "app").
(** ... and the one after cleaning. *)
Definition clean_runF : list fevent :=
  gsteps "gen" "H" [("/p/g.h", Some 5%N)] ++ map FP (build_steps "lib" "/p/l.cpp" true 6) ++
  gsteps "pack" "P" [("/p/pkg", Some 7%N)] ++ map FP (build_steps "app" "/p/a.cpp" true 8).
Definition no_appb (F : full) : bool :=
  match assoc "app" (p_targets (f_proj F)), assoc "app" (p_built (f_proj F)) with
  | Some (e, st), Some c => match d_tgt (s_disk st) with None => true | Some _ => false end
  | _, _ => false
  end.
Definition endedb (F : full) : bool :=
  match p_run (f_proj F) with Some (w, r, _) => Nat.eqb w 2 && reg_eqb r regF | None => false end && overb (f_proj F) && p_ok (f_proj F).
Lemma endedb_sound F : endedb F = true -> exists x, p_run (f_proj F) = Some (2, regF, x) /\ x_over 2 (rg_built regF) (rg_edges regF) x /\ p_ok (f_proj F) = true.
Proof.
  unfold endedb. intros H. apply andb_true_iff in H as [H H3]. apply andb_true_iff in H as [H1 H2].
  destruct (p_run (f_proj F)) as [[[w r] x]|] eqn:E; [|discriminate]. apply andb_true_iff in H1 as [H1 H4].
  apply Nat.eqb_eq in H1. apply reg_eqb_sound in H4. subst w r. apply overb_sound in H2 as (w & r & x' & E' & O). rewrite E in E'. injection E' as <- <- <-.
  exists x. auto.
Qed.
Lemma no_appb_sound F : no_appb F = true -> exists e st c, In ("app", (e, st)) (p_targets (f_proj F)) /\ In ("app", c) (p_built (f_proj F)) /\ ~ all_current e c (s_disk st).
Proof.
  unfold no_appb. intros H. destruct (assoc "app" (p_targets (f_proj F))) as [[e st]|] eqn:E1; [|discriminate].
  destruct (assoc "app" (p_built (f_proj F))) as [c|] eqn:E2; [|discriminate]. apply assoc_In in E1, E2. exists e, st, c.
  split; [exact E1|]. split; [exact E2|]. intros (_ & _ & l & ord & D & _). rewrite D in H. discriminate.
Qed.

(** Without --clean, or if the targets build elsewhere. *)
Lemma not_rebuilt : forall clean dir mt l g F0, (clean = false \/ dir = "_c"%string) ->
  start_script "/p" (args_clean clean dir) filesF left_targets left_gens = Ok (project_init "/p/" (path_div "/p" dir), F0) ->
  (mt, l, g) = (if clean then (clean_times "/p/_c" left_times, clean_targets "/p/_c" left_targets, clean_gens "/p/_c" left_gens) else (left_times, left_targets, left_gens)) ->
  exists h F x, since Forward (fun _ => no_blobs) u80 mt l F0 (registrationF ++ FP (PRun 2 regF) :: idle_runF) h F /\ Forall fundisturbed idle_runF /\
    p_run (f_proj F) = Some (2, regF, x) /\ x_over 2 (rg_built regF) (rg_edges regF) x /\ p_ok (f_proj F) = true /\
    exists e st c, In ("app", (e, st)) (p_targets (f_proj F)) /\ In ("app", c) (p_built (f_proj F)) /\ ~ all_current e c (s_disk st).
Proof.
  intros clean dir mt l g F0 Cd S E.
  assert (K : exists h F, since Forward (fun _ => no_blobs) u80 mt l F0 (registrationF ++ FP (PRun 2 regF) :: idle_runF) h F /\ endedb F && no_appb F = true).
  { destruct clean.
    - destruct Cd as [Cd|Cd]; [discriminate Cd|]. subst dir. apply start_clean in S as (_ & _ & ->); [|reflexivity].
      apply pair_equal_spec in E as [E _]. apply pair_equal_spec in E as [-> ->]. apply since_case; vm_compute; reflexivity.
    - apply start_without in S as ->; [|reflexivity]. apply pair_equal_spec in E as [E _]. apply pair_equal_spec in E as [-> ->].
      apply since_case; vm_compute; reflexivity. }
  destruct K as (h & F & H & P). apply andb_true_iff in P as [P1 P2]. apply endedb_sound in P1 as (x & P1 & P3 & P4). exists h, F, x.
  split; [exact H|]. split; [repeat constructor|]. split; [exact P1|]. split; [exact P3|]. split; [exact P4|]. exact (no_appb_sound F P2).
Qed.
