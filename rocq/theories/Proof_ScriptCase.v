(** Checking concrete histories of scripts by computation; the script used in the
    examples. *)
From Verif Require Import Prelude Proof_Prelude Model_Path Model_Json Model_Schema Model_Command Model_ToolchainConfig Model_Target Spec_Target
  Proof_TargetCase Model_Gen Spec_Gen Proof_GenCase Model_Sync Spec_Sync Model_Api Spec_Api Model_Toolchains Model_Reg Spec_Reg Model_Project Spec_Project
  Proof_ProjectCase Model_Full Spec_Full Proof_FullCase Model_Script Spec_Script.

(** ** Following a history *)

Definition follow_ok (bd : string -> discipline) (evs : list fevent) : Prop :=
  forall ev, In ev evs -> (forall i o, ev = FBuild i o -> Spec_Gen.follows (bd i) o) /\ (forall i o, ev <> FStep i (GStart o)).
Definition no_run (ev : fevent) : bool := match ev with FP (PRun _ _) => false | _ => true end.

(** What is built when [se] has been executed. *)
Definition followsb (objects : list (string * node)) (se : session) (F : full) : bool :=
  match script_run (SS objects []) (se_script se) with
  | SOk st => forallb (fun x => existsb (fun y => String.eqb (fst x) (fst y) && cfg_eqb (snd x) (cfg_of (snd y))) (ss_built st)) (p_built (f_proj F))
  | _ => false
  end &&
  forallb (fun x => existsb (fun y => String.eqb (fst x) (fst y) && gobj_eqb (snd x) (snd y)) (se_gens se)) (f_objs F).
Lemma followsb_sound objects se F : followsb objects se F = true -> Spec_Script.follows objects se F.
Proof.
  unfold followsb. intros H. apply andb_true_iff in H as [H1 H2]. split.
  - destruct (script_run (SS objects []) (se_script se)) as [st| |]; try discriminate. exists st. split; [reflexivity|].
    intros i c I. rewrite forallb_forall in H1. specialize (H1 _ I). apply existsb_exists in H1 as ([j u] & J & E). cbn [fst snd] in E.
    apply andb_true_iff in E as [E1 E2]. apply String.eqb_eq in E1 as ->. apply cfg_eqb_sound in E2. exists u. auto.
  - intros [j o] I. rewrite forallb_forall in H2. specialize (H2 _ I). apply existsb_exists in H2 as ([j' o'] & J & E). cbn [fst snd] in E.
    apply andb_true_iff in E as [E1 E2]. apply String.eqb_eq in E1 as ->. apply gobj_eqb_sound in E2 as ->. exact J.
Qed.

Section Follow.
  Variables (rg : regime) (bd : string -> discipline) (u8 : string -> N) (objects : list (string * node)) (ses : list session).
  (** [PRun _ r] has to be the run of the first of [ses]. *)
  Definition sadmissibleb (n : nat) (F : full) (h : fhist) (ev : fevent) : bool :=
    match ev with
    | FP (PRun _ r) => match nth_error ses n with Some se => reg_eqb (se_reg se) r && followsb objects se F | None => false end
    | _ => fadmissibleb rg F h ev
    end.
  Fixpoint sfollow (n : nat) (h : fhist) (F : full) (evs : list fevent) : option (fhist * full) :=
    match evs with
    | [] => Some (h, F)
    | ev :: r =>
        if sadmissibleb n F h ev then
          match fstep u8 F ev with Some F' => sfollow (if no_run ev then n else S n) (ftrack u8 F h ev) F' r | None => None end
        else None
    end.
  Lemma sfollow_shistory mt0 l files gids evs : forall n pre h F h' F', follow_ok bd evs ->
    shistory rg bd u8 mt0 l files gids objects (fun se => In se ses) pre h F -> sfollow n h F evs = Some (h', F') ->
    shistory rg bd u8 mt0 l files gids objects (fun se => In se ses) (pre ++ evs) h' F'.
  Proof.
    induction evs as [|ev evs IH]; intros n pre h F h' F' Pl H X; cbn [sfollow] in *.
    - injection X as <- <-. rewrite app_nil_r. exact H.
    - destruct (sadmissibleb n F h ev) eqn:A; [|discriminate]. destruct (fstep u8 F ev) as [F1|] eqn:S; [|discriminate].
      destruct (Pl ev (or_introl eq_refl)) as [P1 P2].
      assert (A' : sadmissible rg bd objects (fun se => In se ses) F h ev).
      { destruct ev as [pe|i|i o|i x]; [destruct pe|..]; try exact (fadmissibleb_sound rg bd u8 F h _ F1 P1 P2 A S).
        cbn [sadmissibleb] in A. destruct (nth_error ses n) as [se|] eqn:E; [|discriminate]. apply andb_true_iff in A as [A1 A2].
        exists se. split; [exact (nth_error_In _ _ E)|]. split; [exact (reg_eqb_sound _ _ A1)|exact (followsb_sound _ _ _ A2)]. }
      assert (P : follow_ok bd evs) by (intros y Y; apply Pl; right; exact Y).
      specialize (IH _ _ _ _ _ _ P (shistory_snoc _ _ _ _ _ _ _ _ _ _ _ _ _ _ H A' S) X). rewrite <- app_assoc in IH. exact IH.
  Qed.
  Lemma sfollow_case mt0 l files gids evs (P : full -> bool) : follow_ok bd evs ->
    match sfollow 0 (fhist0 mt0 l) (finit mt0 l files gids) evs with Some (_, F) => P F | None => false end = true ->
    exists h F, shistory rg bd u8 mt0 l files gids objects (fun se => In se ses) evs h F /\ P F = true.
  Proof.
    intros Pl H. destruct (sfollow 0 (fhist0 mt0 l) (finit mt0 l files gids) evs) as [[h F]|] eqn:E; [|discriminate].
    exists h, F. split; [|exact H]. exact (sfollow_shistory mt0 l files gids evs 0 [] _ _ h F Pl (shistory_nil _ _ _ _ _ _ _ _ _) E).
  Qed.
End Follow.
Lemma plain_follow_ok evs : forallb plain evs = true -> follow_ok (fun _ => no_blobs) evs.
Proof.
  intros H ev I. rewrite forallb_forall in H. specialize (H ev I). split.
  - intros i o ->. apply handlerless_follows. exact H.
  - intros i o ->. discriminate H.
Qed.

(** ** The script of the examples: the program of Proof_FullCase.v; the generated
    header and a flag are given to a TargetInfo from which the application takes
    them. *)
Definition bare : node := ND tconfig_default "/p" (new_target no_flags).
Definition objectsS : list (string * node) := [("info", bare); ("lib", bare); ("app", bare)].
Definition no_ls : listing := fun _ => None.
Definition scriptS : list stmt :=
  [ SCalls "lib" no_ls [AddSource "l.cpp" ""; AddFlag FCommon "-O1"]; SBuild "lib";
    SCalls "info" no_ls [AddHeader "g.h" ""; AddFlag FCommon "-O1"];
    SCalls "app" no_ls [AddSource "a.cpp" ""; AddLibDepTarget eL];
    SInsert "app" "info" ByRef [HeaderFiles; CommonCompileFlags]; SBuild "app" ].
Definition sessionS : session := SE scriptS [("gen", oGen); ("pack", oPack)] regF.
Ltac each H := lazymatch type of H with _ \/ _ => destruct H as [H|H]; [|each H] | False => destruct H end.
Definition toldS : list (string * sync_option * string) :=
  [("lib", SourceFiles, "/p/l.cpp"); ("lib", CommonCompileFlags, "-O1"); ("info", HeaderFiles, "/p/g.h"); ("info", CommonCompileFlags, "-O1");
   ("app", SourceFiles, "/p/a.cpp"); ("app", LibDeps, "/p/_b/l/l.a"); ("app", HeaderFiles, "/p/g.h"); ("app", CommonCompileFlags, "-O1")].
Lemma toldS_all i x f : told objectsS scriptS i x f -> In (i, x, f) toldS.
Proof.
  induction 1 as [i x f (n & ls & cs & c & h & N & S & C & A)|i j x f (m & xs & X & S) T IH].
  - cbn [In scriptS] in S. each S; try discriminate S; injection S as <- <- <-; cbn [In objectsS] in N; each N; try discriminate N; injection N as <-;
      cbn [In] in C; each C; subst c; vm_compute in A; each A; injection A as <- <- <-; vm_compute; tauto.
  - destruct S as [S|S]; cbn [In scriptS] in S; each S; try discriminate S. injection S as <- <- <- <-. cbn [In] in X. each X; subst x;
      cbn [In toldS] in IH; each IH; try discriminate IH; injection IH as <-; vm_compute; tauto.
Qed.
Lemma writerS b f : writer projF filesF b f -> In (b, f) [("lib", "/p/_b/l/l.a"); ("app", out_file e0); ("gen", "/p/g.h"); ("pack", "/p/pkg")].
Proof.
  intros [(e & d & I & ->)|(fs & I & J)].
  - destruct I as [I|[I|[]]]; injection I as <- <- <-; cbn [In]; [left; reflexivity|right; left; reflexivity].
  - destruct I as [I|[I|[]]]; injection I as <- <-; destruct J as [<-|[]]; cbn [In]; tauto.
Qed.
Lemma coveredS : covered objectsS projF filesF sessionS.
Proof.
  split; cbn [se_script se_reg se_gens sessionS].
  - intros i x f b T X W B I. apply toldS_all in T. apply writerS in W.
    cbn [In toldS] in T. each T; injection T as <- <- <-; try discriminate X; cbn [In] in W; each W; apply pair_equal_spec in W as [<- W];
      try (vm_compute in W; discriminate W); try (exfalso; cbn in I; intuition discriminate); apply before_edge; cbn; tauto.
  - intros a o k g f b O K I W N _ _. apply writerS in W. destruct O as [O|[O|[]]]; injection O as <- <-; destruct K as [K|[]]; injection K as <- <-.
    + destruct I as [<-|[]]. cbn [In] in W. each W; apply pair_equal_spec in W as [<- W]; vm_compute in W; discriminate W.
    + destruct I as [<-|[]]. cbn [In] in W. each W; apply pair_equal_spec in W as [<- W]; try (vm_compute in W; discriminate W). apply before_edge. cbn. tauto.
Qed.
Lemma newS : new_objects objectsS.
Proof.
  split; [repeat constructor; cbn; intuition discriminate|].
  intros i n x [H|[H|[H|[]]]] X; injection H as <- <-; destruct x; try discriminate X; reflexivity.
Qed.
