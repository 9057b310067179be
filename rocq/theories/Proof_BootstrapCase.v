(** The bootstrap program on a small repository. *)
From Verif Require Import Prelude Proof_Prelude Model_Path Model_Json Model_Schema Model_Command Model_ToolchainConfig
  Model_Target Spec_Target Proof_TargetCase Model_Gcc Model_Find Model_Sync Model_Api Spec_Api Model_Toolchains Spec_Toolchains Model_Targets Spec_Targets
  Model_Reg Spec_Reg Model_Bootstrap Model_Project Spec_Project Proof_ProjectCase Spec_Bootstrap Proof_Bootstrap.

Section Follow.
  Variables (rg : regime) (regs : reg -> Prop) (options : string -> cfg -> Prop) (l : list (string * (tenv * disk))).
  Fixpoint prog_follow (h : phist) (p : Model_Project.project) (evs : list pevent) : option (phist * Model_Project.project) :=
    match evs with
    | [] => Some (h, p)
    | ev :: r =>
        if match ev with PRun _ _ => true | _ => padmissibleb rg p h ev end then
          match pstep p ev with Some p' => prog_follow (ptrack p h ev) p' r | None => None end
        else None
    end.
  Lemma prog_follow_sound evs : forall pre h p h' p', (forall w r, In (PRun w r) evs -> regs r) -> (forall i c o, In (PBuild i c o) evs -> options i c) ->
    prog_history rg regs options l pre h p -> prog_follow h p evs = Some (h', p') -> prog_history rg regs options l (pre ++ evs) h' p'.
  Proof.
    induction evs as [|ev evs IH]; intros pre h p h' p' R O H F; cbn [prog_follow] in F.
    - injection F as <- <-. rewrite app_nil_r. exact H.
    - destruct (match ev with PRun _ _ => true | _ => padmissibleb rg p h ev end) eqn:A; [|discriminate].
      destruct (pstep p ev) as [p1|] eqn:S; [|discriminate].
      assert (AD : prog_admissible rg regs options p h ev).
      { destruct ev; try exact (padmissibleb_sound _ _ _ _ _ A S).
        - split; [apply (O id c ord); left; reflexivity|exact (padmissibleb_sound _ _ _ _ _ A S)].
        - apply (R w r). left. reflexivity. }
      replace (pre ++ ev :: evs) with ((pre ++ [ev]) ++ evs) by (rewrite <- app_assoc; reflexivity).
      apply (IH _ _ _ h' p') with (4 := F).
      + intros w r I. apply (R w r). right. exact I.
      + intros i c o I. apply (O i c o). right. exact I.
      + exact (prog_history_snoc _ _ _ _ _ _ _ _ _ H AD S).
  Qed.
  Lemma prog_follow_case evs (P : Model_Project.project -> bool) :
    (forall w r, In (PRun w r) evs -> regs r) -> (forall i c o, In (PBuild i c o) evs -> options i c) ->
    match prog_follow (phist0 l) (pinit l []) evs with Some (_, p) => P p | None => false end = true ->
    exists h p, prog_history rg regs options l evs h p /\ P p = true.
  Proof.
    intros R O H. destruct (prog_follow (phist0 l) (pinit l []) evs) as [[h p]|] eqn:F; [|discriminate].
    exists h, p. split; [|exact H]. exact (prog_follow_sound evs [] _ _ h p R O (prog_history_nil rg regs options l) F).
  Qed.
End Follow.

Definition case_project : Model_Targets.project := project_init "/w" "/w/_b".
Definition case_tc : toolchain := sample_toolchain Gcc "gcc".
Definition case_host : host := HOST false true.
Definition case_ls : listing := fun d =>
  Some (if String.eqb d "/w/buildcc/lib/env/src" then ["assert.cpp"; "notes.txt"]
        else if String.eqb d "/w/buildcc/lib/env/include/env" then ["env.h"]
        else if String.eqb d "/w/buildcc/lib/target/include/target/custom_generator" then ["context.h"]
        else []).
Definition case_ts : list target := match bootstrap_targets case_project case_tc case_host case_ls with Ok ts => ts | Fatal => [] end.
Definition case_cfgs : list (string * cfg) := Eval vm_compute in map (fun t => (g_unique_id t, cfg_of (g_user t))) case_ts.
Definition case_files : Model_Target.times := fun f =>
  if existsb (String.eqb f) ["/w/third_party/tiny-process-library/process.cpp"; "/w/third_party/tiny-process-library/process_unix.cpp";
       "/w/third_party/tiny-process-library/process.hpp"; "/w/buildcc/lib/env/src/assert.cpp"; "/w/buildcc/lib/env/include/env/env.h";
       "/w/buildcc/lib/target/include/target/custom_generator/context.h"; "/w/example/hybrid/simple/build.cpp"] then Some 1%N else None.
Definition case_disk : disk := DK case_files None (fun _ => None) None None false (fun _ => false) false.
Definition case_l : list (string * (tenv * disk)) := map (fun t => (g_unique_id t, (g_env t, case_disk))) case_ts.
Lemma case_ts_ok : bootstrap_targets case_project case_tc case_host case_ls = Ok case_ts.
Proof. vm_compute. reflexivity. Qed.
Lemma case_proper : proper case_ls.
Proof.
  intros d l E. unfold case_ls in E. injection E as <-.
  repeat match goal with |- context [if ?b then _ else _] => destruct b end; split; repeat constructor; cbn; try discriminate; intuition discriminate.
Qed.
Definition case_out (t : target) : string := out_file (g_env t).
Lemma case_linked : nothing_linked case_ts case_l.
Proof.
  exists (fun _ => case_disk), case_files. split; [reflexivity|]. intros t T.
  assert (X : forallb (fun t => match case_files (out_file (g_env t)) with None => true | Some _ => false end) case_ts = true) by (vm_compute; reflexivity).
  apply (proj1 (forallb_forall _ _) X) in T. split; [reflexivity|]. split; [|reflexivity]. destruct (case_files (out_file (g_env t))); [discriminate T|reflexivity].
Qed.
Definition case_reg : reg :=
  REG ["[gcc] libtpl"; "[gcc] libbuildcc"; "[gcc] buildcc_hybrid_simple_example"]
      [("[gcc] libtpl", "[gcc] libbuildcc"); ("[gcc] libbuildcc", "[gcc] buildcc_hybrid_simple_example")] [].
Lemma case_reg_ok : bootstrap_registry case_tc case_reg.
Proof. exists 20, false, true, false. eexists. vm_compute. reflexivity. Qed.

Definition case_registration : list pevent := map (fun x => PBuild (fst x) (snd x) (sources (snd x))) case_cfgs.
Definition case_steps (id : string) (srcs : list string) (t : N) : list pevent :=
  PBegin id :: PStep id EvObjCheck None :: map (fun s => PStep id (EvCompile s XOk) None) srcs ++
  [PStep id EvLinkCheck None; PStep id (EvLinkExec XOk) (Some (Some t)); PStep id (EvEnd WOk) None; PEnd id true].
Definition case_first : list pevent :=
  case_steps "[gcc] libtpl" ["/w/third_party/tiny-process-library/process.cpp"; "/w/third_party/tiny-process-library/process_unix.cpp"] 2 ++
  case_steps "[gcc] libbuildcc" ["/w/buildcc/lib/env/src/assert.cpp"] 3 ++
  case_steps "[gcc] buildcc_hybrid_simple_example" ["/w/example/hybrid/simple/build.cpp"] 4.
(** A source of the second library of the three is edited; then all but the first
    are built again. *)
Definition case_edit : list pevent := [PStop []; PEdit "/w/buildcc/lib/env/src/assert.cpp" (Some 5%N)] ++ case_registration.
Definition case_second : list pevent :=
  idle_steps "[gcc] libtpl" ++ case_steps "[gcc] libbuildcc" ["/w/buildcc/lib/env/src/assert.cpp"] 6 ++ case_steps "[gcc] buildcc_hybrid_simple_example" [] 7.
Definition case_pre : list pevent := case_registration ++ PRun 2 case_reg :: case_first ++ case_edit.

Lemma built_options (ts : list target) i c o :
  In (PBuild i c o) (map (fun x => PBuild (fst x) (snd x) (sources (snd x))) (map (fun t => (g_unique_id t, cfg_of (g_user t))) ts)) ->
  exists t, In t ts /\ g_unique_id t = i /\ c = cfg_of (g_user t).
Proof.
  intros I. rewrite map_map in I. apply in_map_iff in I as (t & I & T). injection I as I1 I2 _. exists t. auto.
Qed.
Lemma case_options i c o : In (PBuild i c o) case_registration -> bootstrap_options case_project case_tc case_host i c.
Proof.
  intros I. assert (E : case_cfgs = map (fun t => (g_unique_id t, cfg_of (g_user t))) case_ts) by (vm_compute; reflexivity).
  unfold case_registration in I. rewrite E in I. destruct (built_options case_ts i c o I) as (t & T1 & T2 & T3).
  exact (ex_intro _ case_ls (ex_intro _ case_ts (ex_intro _ t (conj case_proper (conj case_ts_ok (conj T1 (conj T2 T3))))))).
Qed.
(** The header of custom generators is edited and the program is run again. *)
Definition case_miss : list pevent :=
  [PStop []; PEdit "/w/buildcc/lib/target/include/target/custom_generator/context.h" (Some 9%N)] ++ case_registration ++ PRun 2 case_reg ::
  idle_steps "[gcc] libtpl" ++ idle_steps "[gcc] libbuildcc" ++ idle_steps "[gcc] buildcc_hybrid_simple_example".
Definition executed (p : Model_Project.project) : list nat := map (fun y => length (s_log (snd (snd y)))) (p_targets p).
Definition executedb (p : Model_Project.project) (l : list nat) : bool := if list_eq_dec Nat.eq_dec (executed p) l then true else false.
Lemma executedb_sound p l : executedb p l = true -> executed p = l.
Proof. unfold executedb. destruct (list_eq_dec Nat.eq_dec (executed p) l); [auto|discriminate]. Qed.
Lemma case_history : exists h p p2,
  prog_history Forward (bootstrap_registry case_tc) (bootstrap_options case_project case_tc case_host) case_l
    (case_pre ++ PRun 2 case_reg :: case_second) h p /\
  overb p = true /\ p_ok p = true /\ executed p = [3; 4; 3] /\
  pexec p case_miss = Some p2 /\ overb p2 = true /\ p_ok p2 = true /\ executed p2 = [3; 4; 3].
Proof.
  destruct (prog_follow_case Forward (bootstrap_registry case_tc) (bootstrap_options case_project case_tc case_host) case_l
    (case_pre ++ PRun 2 case_reg :: case_second)
    (fun p => overb p && p_ok p && executedb p [3; 4; 3] &&
      match pexec p case_miss with Some p2 => overb p2 && p_ok p2 && executedb p2 [3; 4; 3] | None => false end)) as (h & p & H & P).
  - intros w r I. assert (E : r = case_reg).
    { assert (X : forallb (fun ev => match ev with PRun _ r => reg_eqb r case_reg | _ => true end) (case_pre ++ PRun 2 case_reg :: case_second) = true) by (vm_compute; reflexivity).
      apply (proj1 (forallb_forall _ _) X) in I. apply reg_eqb_sound. exact I. }
    rewrite E. exact case_reg_ok.
  - intros i c o I. apply (case_options i c o). unfold case_pre in I. apply in_app_or in I as [I|I].
    + apply in_app_or in I as [I|I]; [exact I|]. destruct I as [I|I]; [discriminate I|]. apply in_app_or in I as [I|I].
      * exfalso. assert (X : forallb (fun ev => match ev with PBuild _ _ _ => false | _ => true end) case_first = true) by (vm_compute; reflexivity).
        apply (proj1 (forallb_forall _ _) X) in I. discriminate I.
      * destruct I as [I|[I|I]]; [discriminate I|discriminate I|exact I].
    + exfalso. assert (X : forallb (fun ev => match ev with PBuild _ _ _ => false | _ => true end) (PRun 2 case_reg :: case_second) = true) by (vm_compute; reflexivity).
      apply (proj1 (forallb_forall _ _) X) in I. discriminate I.
  - vm_compute. reflexivity.
  - apply andb_true_iff in P as [P P4]. apply andb_true_iff in P as [P P3]. apply andb_true_iff in P as [P1 P2].
    destruct (pexec p case_miss) as [p2|] eqn:X; [|discriminate]. apply andb_true_iff in P4 as [P4 P6]. apply andb_true_iff in P4 as [P4 P5].
    exists h, p, p2. apply executedb_sound in P3, P6. auto 10.
Qed.
