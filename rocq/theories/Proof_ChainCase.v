(** The example with generated sources in one directory: a concrete history. *)
From Verif Require Import Prelude Proof_Prelude Model_Path Spec_Path Proof_Path Proof_ObjectPath Model_Json Model_Schema Model_Command
  Model_ToolchainConfig Model_Target Spec_Target Proof_TargetCase Model_Gcc Model_Gen Spec_Gen Proof_GenCase Model_FileGen Spec_FileGen Proof_FileGen Model_Sync Spec_Sync
  Model_Api Spec_Api Model_Toolchains Spec_Toolchains Model_Targets Spec_Targets Proof_Targets Model_Reg Spec_Reg Model_Project Spec_Project Proof_ProjectCase
  Model_Full Spec_Full Proof_FullCase Model_Script Spec_Script Proof_ScriptCase Model_Chain Spec_Chain Proof_Chain Proof_Chain2 Proof_Chain3.

(** ** Following histories of programs whose generators have blob handlers *)

Definition builtb (objects : list (string * node)) (se : session) (F : full) : bool :=
  match script_run (SS objects []) (se_script se) with
  | SOk st => forallb (fun x => existsb (fun y => String.eqb (fst x) (fst y) && cfg_eqb (snd x) (cfg_of (snd y))) (ss_built st)) (p_built (f_proj F))
  | _ => false
  end.
Section Follow.
  Variables (rg : regime) (bd : string -> discipline) (u8 : string -> N) (objects : list (string * node)) (ses : list session) (gens : list (string * gobj)).
  Hypothesis SG : forall se, In se ses -> se_gens se = gens.
  Definition hadmissibleb (n : nat) (F : full) (h : fhist) (ev : fevent) : bool :=
    match ev with
    | FP (PRun _ r) => match nth_error ses n with Some se => reg_eqb (se_reg se) r && builtb objects se F | None => false end
    | _ => fadmissibleb rg F h ev
    end.
  Fixpoint hfollow (n : nat) (h : fhist) (F : full) (evs : list fevent) : option (fhist * full) :=
    match evs with
    | [] => Some (h, F)
    | ev :: r =>
        if hadmissibleb n F h ev then
          match fstep u8 F ev with Some F' => hfollow (if no_run ev then n else S n) (ftrack u8 F h ev) F' r | None => None end
        else None
    end.
  Definition follow_gens (evs : list fevent) : Prop := forall i o, In (FBuild i o) evs -> In (i, o) gens.
  Lemma step_objs F ev F' : fstep u8 F ev = Some F' -> incl (f_objs F) gens -> (forall i o, ev = FBuild i o -> In (i, o) gens) -> incl (f_objs F') gens.
  Proof.
    intros S I G. unfold fstep in S. destruct (fallowed F ev); [|discriminate]. destruct (pexec _ _); [|discriminate]. destruct (gdeliver _ _ _ _); [|discriminate].
    injection S as <-. cbn [f_objs]. destruct ev as [pe|j|j o|j x]; cbn [objs_after]; try exact I.
    - destruct pe; try exact I. intros ? [].
    - intros y Y. apply in_app_or in Y as [Y|[Y|[]]]; [exact (I y Y)|]. subst y. exact (G j o eq_refl).
  Qed.
  Lemma hfollow_shistory mt0 l files gids evs : forall n pre h F h' F', follow_ok bd evs -> follow_gens evs -> incl (f_objs F) gens ->
    shistory rg bd u8 mt0 l files gids objects (fun se => In se ses) pre h F -> hfollow n h F evs = Some (h', F') ->
    shistory rg bd u8 mt0 l files gids objects (fun se => In se ses) (pre ++ evs) h' F'.
  Proof.
    induction evs as [|ev evs IH]; intros n pre h F h' F' Pl G J H X; cbn [hfollow] in *.
    - injection X as <- <-. rewrite app_nil_r. exact H.
    - destruct (hadmissibleb n F h ev) eqn:A; [|discriminate]. destruct (fstep u8 F ev) as [F1|] eqn:S; [|discriminate].
      destruct (Pl ev (or_introl eq_refl)) as [P1 P2].
      assert (A' : sadmissible rg bd objects (fun se => In se ses) F h ev).
      { destruct ev as [pe|i|i o|i x]; [destruct pe|..]; try exact (fadmissibleb_sound rg bd u8 F h _ F1 P1 P2 A S).
        cbn [hadmissibleb] in A. destruct (nth_error ses n) as [se|] eqn:E; [|discriminate]. apply andb_true_iff in A as [A1 A2].
        exists se. split; [exact (nth_error_In _ _ E)|]. split; [exact (reg_eqb_sound _ _ A1)|]. split; [|rewrite (SG se (nth_error_In _ _ E)); exact J].
        unfold builtb in A2. destruct (script_run (SS objects []) (se_script se)) as [st| |]; try discriminate. exists st. split; [reflexivity|].
        intros i c I. rewrite forallb_forall in A2. specialize (A2 _ I). apply existsb_exists in A2 as ([j u] & K & Q). cbn [fst snd] in Q.
        apply andb_true_iff in Q as [E1 E2]. apply String.eqb_eq in E1 as ->. apply cfg_eqb_sound in E2. exists u. auto. }
      assert (P : follow_ok bd evs) by (intros y Y; apply Pl; right; exact Y).
      assert (G1 : follow_gens evs) by (intros i o I; apply G; right; exact I).
      assert (J1 : incl (f_objs F1) gens) by (apply (step_objs _ _ _ S J); intros i o ->; apply G; left; reflexivity).
      specialize (IH _ _ _ _ _ _ P G1 J1 (shistory_snoc _ _ _ _ _ _ _ _ _ _ _ _ _ _ H A' S) X). rewrite <- app_assoc in IH. exact IH.
  Qed.
  Lemma hfollow_case mt0 l files gids evs (P : full -> bool) : follow_ok bd evs -> follow_gens evs ->
    match hfollow 0 (fhist0 mt0 l) (finit mt0 l files gids) evs with Some (_, F) => P F | None => false end = true ->
    exists h F, shistory rg bd u8 mt0 l files gids objects (fun se => In se ses) evs h F /\ P F = true.
  Proof.
    intros Pl G H. destruct (hfollow 0 (fhist0 mt0 l) (finit mt0 l files gids) evs) as [[h F]|] eqn:E; [|discriminate].
    exists h, F. split; [|exact H]. refine (hfollow_shistory mt0 l files gids evs 0 [] _ _ h F Pl G _ (shistory_nil _ _ _ _ _ _ _ _ _) E). intros ? [].
  Qed.
End Follow.

(** ** The directory *)

Definition pC : Model_Targets.project := project_init "/w/ex" "/w/ex/_build".
Definition tsC : list target := Eval vm_compute in match chain_targets pC with Ok ts => ts | Fatal => [] end.
Lemma tsC_ok : chain_targets pC = Ok tsC.
Proof. vm_compute. reflexivity. Qed.
Definition filesC : Model_Target.times := fun f => if String.eqb f "/w/ex/python/gen.py" then Some 1%N else None.
Definition diskC : disk := DK filesC None (fun _ => None) None None false (fun _ => false) false.
Definition lC : list (string * (tenv * disk)) := map (fun t => (g_unique_id t, (g_env t, diskC))) tsC.
Lemma unbuiltC : unbuilt filesC tsC lC.
Proof.
  exists (fun _ => diskC). split; [reflexivity|]. intros t I. split; [reflexivity|]. split; [|reflexivity].
  assert (X : forallb (fun t => match filesC (out_file (g_env t)) with None => true | Some _ => false end) tsC = true) by (vm_compute; reflexivity).
  apply (proj1 (forallb_forall _ _) X) in I. destruct (filesC (out_file (g_env t))); [discriminate I|reflexivity].
Qed.
Lemma properC : proper_dirs pC.
Proof.
  split; [reflexivity|]. split; [|split].
  - exists ["w"; "ex"]. split; [reflexivity|]. repeat constructor; discriminate.
  - exists ["w"; "ex"; "_build"]. split; [reflexivity|]. repeat constructor; discriminate.
  - intros t. split; vm_compute; discriminate.
Qed.
Lemma storableC : storable pC.
Proof. split; split; [reflexivity|repeat constructor|reflexivity|repeat constructor]. Qed.

Definition cppC : string := "/w/ex/_build/cpp_generator/main.cpp".
Definition cC : string := "/w/ex/_build/c_generator/main.c".
Definition no_lsC : listing := fun _ => None.
Definition gensC : list (string * gobj) := [("cpp_generator", o_cpp pC); ("c_generator", o_c pC)].
(** --toolchains.gcc.build *)
Definition progC : list api := chain_prog false true false false false.
Definition regC : reg := Eval vm_compute in match run_apis 20 progC rs_init with RDone (RS (Some r) _) => r | _ => REG [] [] [] end.
Lemma regC_registers : registers 20 progC regC.
Proof. eexists. vm_compute. reflexivity. Qed.
Definition seC : session := SE (script_of pC no_lsC true false) gensC regC.

Lemma sessionC : chain_session pC seC.
Proof.
  exists no_lsC, 20, false, true, false, false, false. split; [exact (main_eq pC no_lsC true false)|exact regC_registers].
Qed.
Definition cfgsC : list (string * cfg) := Eval vm_compute in
  match script_run (SS (chain_objects tsC) []) (se_script seC) with SOk st => map (fun x => (fst x, cfg_of (snd x))) (ss_built st) | _ => [] end.
Definition registrationC : list fevent :=
  map (fun x => FBuild (fst x) (snd x)) gensC ++ map (fun x => FP (PBuild (fst x) (snd x) (sources (snd x)))) cfgsC.
(** Everything is generated, compiled and linked. *)
Definition firstC : list fevent :=
  [FP (PBegin "cpp_generator"); FP (PBegin "c_generator"); FStep "cpp_generator" GSetup; FStep "c_generator" GSetup;
   FStep "c_generator" (GEnter "Generate"); FStep "cpp_generator" (GEnter "Generate");
   FStep "cpp_generator" (GCall "Generate" true [(cppC, Some 2%N)]); FStep "c_generator" (GCall "Generate" true [(cC, Some 2%N)]);
   FStep "c_generator" (GFinish WOk); FP (PEnd "c_generator" true); FStep "cpp_generator" (GFinish WOk); FP (PEnd "cpp_generator" true)] ++
  map FP (build_steps "[gcc] cpptarget" cppC true 3) ++ map FP (build_steps "[gcc] ctarget" cC true 4).
(** The generated C++ file is edited by hand: it is compiled, not generated. *)
Definition betweenC : list fevent := [FP (PStop []); FP (PEdit cppC (Some 5%N))] ++ registrationC.
Definition secondC : list fevent :=
  gidle_steps "cpp_generator" "Generate" ++ gidle_steps "c_generator" "Generate" ++
  map FP (build_steps "[gcc] cpptarget" cppC true 6) ++ map FP (idle_steps "[gcc] ctarget").
(** The script that generates the files is edited. *)
Definition missC : list fevent :=
  [FP (PStop []); FP (PEdit (gen_py pC) (Some 7%N))] ++ registrationC ++ FP (PRun 2 regC) ::
  gidle_steps "cpp_generator" "Generate" ++ gidle_steps "c_generator" "Generate" ++
  map FP (idle_steps "[gcc] cpptarget") ++ map FP (idle_steps "[gcc] ctarget").
Definition historyC : list fevent := (registrationC ++ FP (PRun 2 regC) :: firstC ++ betweenC) ++ FP (PRun 2 regC) :: secondC.

Lemma o_follows o : In o (map snd gensC) -> Spec_Gen.follows file_blobs o.
Proof.
  intros [<-|[<-|[]]] id g I; (destruct I as [I|[]]; injection I as <- <-); cbn [gi_handler]; intros x y E; cbn [strings_handler bh_equal] in E;
    change (deserialize x = deserialize y); destruct (deserialize x), (deserialize y); try discriminate E; injection E as E; apply str_list_eqb_eq in E; congruence.
Qed.
Lemma build_events ev i o : In ev historyC -> ev = FBuild i o -> In (i, o) gensC.
Proof.
  intros I ->. unfold historyC, betweenC, registrationC, firstC, secondC, gidle_steps, build_steps, idle_steps in I.
  assert (N : forall (f : pevent -> fevent) l, (forall x, f x <> FBuild i o) -> ~ In (FBuild i o) (map f l)).
  { intros f l Q K. apply in_map_iff in K as (y & K & _). exact (Q y K). }
  assert (M : forall l : list (string * cfg), ~ In (FBuild i o) (map (fun x => FP (PBuild (fst x) (snd x) (sources (snd x)))) l)).
  { intros l K. apply in_map_iff in K as (y & K & _). discriminate K. }
  assert (B : In (FBuild i o) (map (fun x => FBuild (fst x) (snd x)) gensC) -> In (i, o) gensC).
  { intros K. apply in_map_iff in K as ([j q] & K & Q). injection K as -> ->. exact Q. }
  repeat (apply in_app_or in I as [I|I] || (apply in_inv in I as [I|I]; [discriminate I|]));
    try (exact (B I)); try (destruct (M _ I)); try (apply N in I; [destruct I|discriminate]); try destruct I.
Qed.
Definition endC (F : full) : bool :=
  overb (f_proj F) && p_ok (f_proj F) && nats_eqb (tlogs F) [4; 2; 0; 0] && nats_eqb (glogs F) [1; 1].
Lemma caseC : forall rg, exists h F F2,
  shistory rg (fun _ => file_blobs) u80 filesC lC (chain_files pC) chain_gids (chain_objects tsC) (chain_session pC) historyC h F /\
  endC F = true /\ fexec u80 F missC = Some F2 /\ endC F2 = true.
Proof.
  intros rg.
  destruct (hfollow_case rg (fun _ => file_blobs) u80 (chain_objects tsC) [seC; seC] gensC
    (fun se I => match I with or_introl E => f_equal se_gens (eq_sym E) | or_intror (or_introl E) => f_equal se_gens (eq_sym E) | or_intror (or_intror f) => match f with end end)
    filesC lC (chain_files pC) chain_gids historyC
    (fun F => endC F && match fexec u80 F missC with Some F2 => endC F2 | None => false end)) as (h & F & H & P).
  { intros ev I. split.
    - intros i o ->. apply o_follows. pose proof (build_events _ i o I eq_refl) as K. apply (in_map snd) in K. exact K.
    - intros i o ->. revert I. clear.
      assert (Z : forallb (fun ev => match ev with FStep _ (GStart _) => false | _ => true end) historyC = true) by (vm_compute; reflexivity).
      intros I. apply (proj1 (forallb_forall _ _) Z) in I. discriminate I. }
  { intros i o I. exact (build_events _ i o I eq_refl). }
  { destruct rg; vm_compute; reflexivity. }
  apply andb_true_iff in P as [P1 P2]. apply fexec_case in P2 as (F2 & X & P2). exists h, F, F2. split; [|auto].
  assert (M : forall (ses ses' : session -> Prop) evs h F, (forall se, ses se -> ses' se) ->
    shistory rg (fun _ => file_blobs) u80 filesC lC (chain_files pC) chain_gids (chain_objects tsC) ses evs h F ->
    shistory rg (fun _ => file_blobs) u80 filesC lC (chain_files pC) chain_gids (chain_objects tsC) ses' evs h F).
  { clear. intros ses ses' evs h F I H. induction H as [|evs h F ev F' H IH A S]; [constructor|]. econstructor; [exact IH| |exact S].
    destruct ev as [pe| | |]; try exact A. destruct pe; try exact A. destruct A as (se & A1 & A2). exists se. auto. }
  apply (M (fun se => In se [seC; seC])); [|exact H]. intros se [<-|[<-|[]]]; exact sessionC.
Qed.
