(** The copy of a library: concrete histories. *)
From Verif Require Import Prelude Proof_Prelude Model_Path Model_Json Model_Schema Model_Command Spec_Command Model_ToolchainConfig
  Model_Target Spec_Target Proof_TargetStep Proof_TargetCase Model_Reg Spec_Reg Model_Project Spec_Project Proof_ProjectCase
  Model_Database Spec_Database Proof_DatabaseCase Model_PostCopy Spec_PostCopy Proof_PostCopy.

(** ** Checking a history by computation *)

Definition cdoneb (s : cstate) : bool := match c_stage s with CDone => true | _ => false end.
Definition cadmissibleb (rg : regime) (exe lib : string) (h : phist) (s : cstate) (ev : cevent) (s' : cstate) : bool :=
  match ev with
  | CRun pe =>
      padmissibleb rg (c_p s) h pe &&
      match pe with
      | PForget _ => is_nil (p_built (c_p s))
      | PBuild i c _ => negb (String.eqb i exe) ||
          forallb (fun x => negb (String.eqb (fst x) lib) || mem_str (out_file (fst (snd x))) (libs c)) (p_targets (c_p s))
      | PStop _ =>
          cdoneb s || negb (mem_str exe (c_built s)) ||
          existsb (fun x => String.eqb (fst x) exe && unfinishedb (snd (snd x))) (p_targets (c_p s'))
      | _ => true
      end
  | CCopy _ _ =>
      mem_str exe (map fst (p_built (c_p s))) &&
      match p_run (c_p s) with Some (_, r, _) => mem_str exe (rg_built r) | None => false end
  | CTouch _ => false
  end.
Lemma cadmissibleb_sound rg removes exe lib h s ev s' : cadmissibleb rg exe lib h s ev s' = true -> cstep removes exe lib s ev = Some s' ->
  cadmissible rg exe lib h s ev s'.
Proof.
  destruct ev as [pe|ok kept|t]; [| |discriminate]; cbn [cadmissibleb cadmissible]; intros H S; apply andb_true_iff in H as [H1 H2].
  - split.
    + cbn [cstep] in S. destruct (match c_stage s with CBefore => true | _ => after_generate pe end); [|discriminate].
      destruct (pstep (c_p s) pe) as [p'|] eqn:E; [|discriminate]. exact (padmissibleb_sound _ _ _ _ _ H1 E).
    + clear H1 S. destruct pe as [| |i c o| | | | | | |l0]; try exact Logic.I.
      * destruct (p_built (c_p s)); [reflexivity|discriminate].
      * intros -> e st Hi. rewrite String.eqb_refl in H2. cbn [negb orb] in H2. rewrite forallb_forall in H2. specialize (H2 _ Hi).
        cbn [fst snd] in H2. rewrite String.eqb_refl in H2. apply mem_str_In. exact H2.
      * apply orb_true_iff in H2 as [H2|H2]; [apply orb_true_iff in H2 as [H2|H2]|].
        -- left. unfold cdoneb in H2. destruct (c_stage s); try discriminate. reflexivity.
        -- right. left. apply negb_true_iff in H2. apply mem_str_false. exact H2.
        -- right. right. apply existsb_exists in H2 as ([i [e st]] & K1 & K2). cbn [fst snd] in K2. apply andb_true_iff in K2 as [K2 K3].
           apply String.eqb_eq in K2. subst i. exists e, st. split; [exact K1|exact (unfinishedb_sound _ K3)].
  - apply mem_str_In in H1. split; [exact H1|]. destruct (p_run (c_p s)) as [[[k r] x]|]; [|discriminate]. apply mem_str_In in H2. exists k, r, x. auto.
Qed.

Fixpoint cfollow (rg : regime) (removes : bool) (exe lib : string) (h : phist) (s : cstate) (evs : list cevent) : option (phist * cstate) :=
  match evs with
  | [] => Some (h, s)
  | ev :: r =>
      match cstep removes exe lib s ev with
      | Some s' =>
          if cadmissibleb rg exe lib h s ev s' then
            cfollow rg removes exe lib (match ev with CRun pe => ptrack (c_p s) h pe | _ => h end) s' r
          else None
      | None => None
      end
  end.
Lemma cfollow_chistory rg removes exe lib l gens copy evs : forall pre pevs h s h' s',
  chistory rg removes exe lib l gens copy pre pevs h s -> cfollow rg removes exe lib h s evs = Some (h', s') ->
  exists pevs', chistory rg removes exe lib l gens copy (pre ++ evs) pevs' h' s'.
Proof.
  induction evs as [|ev evs IH]; intros pre pevs h s h' s' H F; cbn [cfollow] in F.
  - injection F as <- <-. rewrite app_nil_r. eauto.
  - destruct (cstep removes exe lib s ev) as [s1|] eqn:S; [|discriminate]. destruct (cadmissibleb rg exe lib h s ev s1) eqn:A; [|discriminate].
    pose proof (cadmissibleb_sound _ _ _ _ _ _ _ _ A S) as A'. destruct ev as [pe|ok kept|t]; [| |destruct A'].
    + destruct (IH _ _ _ _ _ _ (chistory_run _ _ _ _ _ _ _ _ _ _ _ _ _ H S A') F) as (q & K). rewrite <- app_assoc in K. eauto.
    + destruct (IH _ _ _ _ _ _ (chistory_copy _ _ _ _ _ _ _ _ _ _ _ _ _ _ H S A') F) as (q & K). rewrite <- app_assoc in K. eauto.
Qed.
Lemma cfollow_case rg removes exe lib l gens copy evs (P : cstate -> bool) :
  match cfollow rg removes exe lib (phist0 l) (cinit l gens copy) evs with Some (_, s) => P s | None => false end = true ->
  exists pevs h s, chistory rg removes exe lib l gens copy evs pevs h s /\ P s = true.
Proof.
  intros H. destruct (cfollow rg removes exe lib (phist0 l) (cinit l gens copy) evs) as [[h s]|] eqn:F; [|discriminate].
  destruct (cfollow_chistory rg removes exe lib l gens copy evs [] [] _ _ h s (chistory_nil rg removes exe lib l gens copy) F) as (pevs & K).
  exists pevs, h, s. auto.
Qed.
Lemma cexec_case removes exe lib s0 evs (P : cstate -> bool) :
  match cexec removes exe lib s0 evs with Some s => P s | None => false end = true ->
  exists s, cexec removes exe lib s0 evs = Some s /\ P s = true.
Proof. destruct (cexec removes exe lib s0 evs) as [s|]; [|discriminate]. intros H. exists s. auto. Qed.

(** ** The program: the library, the application and the generator of Proof_ProjectCase.v *)

Definition cruns (l : list pevent) : list cevent := map CRun l.
Definition do_copy : list cevent := [CCopy true None].
Definition rebuild : list cevent := cruns edit_lib ++ cruns (PRun 2 reg1 :: second_run).
Definition idle_later : list cevent := cruns (PStop [] :: idle_again).
(** An old file in place of the copy. *)
Definition some_file : tgt_art := TA "" (fun _ => None) (fun _ => None).

(** The first process is killed when the library is built and the application is
    not; the second one builds the rest and copies; then the library is edited,
    built and copied again; the last run finds nothing to do. *)
Definition four_runs : list cevent :=
  cruns (registration ++ PRun 2 reg1 :: gen_steps 2 ++ build_steps "lib" "/p/l.cpp" true 3 ++ [PBegin "app"; PStep "app" EvObjCheck None; PStop []]) ++
  cruns (registration ++ PRun 2 reg1 :: gen_idle ++ idle_steps "lib" ++ build_steps "app" "/p/a.cpp" true 4) ++ do_copy ++
  rebuild ++ do_copy ++ idle_later ++ do_copy.
Lemma four_runs_case : forall rg, exists pevs h s,
  chistory rg true "app" "lib" proj gens1 (Some some_file) four_runs pevs h s /\ cdoneb s = true.
Proof. intros rg. apply cfollow_case. destruct rg; vm_compute; reflexivity. Qed.
(** Without removing, the copy must not be there and nothing may be built again. *)
Definition once : list cevent := cruns whole_run ++ do_copy ++ idle_later ++ do_copy.
Lemma once_case : forall rg, exists pevs h s, chistory rg false "app" "lib" proj gens1 None once pevs h s /\ cdoneb s = true.
Proof. intros rg. apply cfollow_case. destruct rg; vm_compute; reflexivity. Qed.

(** The copy was made from another version of the source of the library. *)
Definition old_copyb (s : cstate) : bool :=
  nodup_str (map fst (p_targets (c_p s))) &&
  match assoc "lib" (p_targets (c_p s)) with
  | Some (_, st) =>
      match c_copy s, d_tgt (s_disk st) with
      | None, Some _ => true
      | Some a, Some b => negb (timeb (l_snap a "/p/l.cpp") (l_snap b "/p/l.cpp"))
      | _, _ => false
      end
  | None => false
  end.
Lemma old_copyb_sound s : old_copyb s = true -> ~ copy_current "lib" (c_p s) (c_copy s).
Proof.
  unfold old_copyb. intros H (e & st & Hi & E). apply andb_true_iff in H as [H1 H]. apply nodup_str_NoDup in H1.
  rewrite (assoc_NoDup_In _ _ _ H1 Hi), E in H. destruct (d_tgt (s_disk st)) as [k|]; [|discriminate]. rewrite timeb_refl in H. discriminate.
Qed.

(** Everything succeeds in the last run, which copies nothing, and the copy is not the library. *)
Definition old_copy_after (removes : bool) (evs : list cevent) (s : cstate) : Prop :=
  cexec removes "app" "lib" (cinit proj gens1 None) evs = Some s /\ c_stage s = CDone /\ ~ copy_current "lib" (c_p s) (c_copy s).
Lemma old_copy_case removes evs :
  match cexec removes "app" "lib" (cinit proj gens1 None) evs with Some s => cdoneb s && old_copyb s | None => false end = true ->
  exists s, old_copy_after removes evs s.
Proof.
  intros H. apply cexec_case in H as (s & X & H). apply andb_true_iff in H as [H1 H2]. exists s. split; [exact X|].
  split; [unfold cdoneb in H1; destruct (c_stage s); try discriminate; reflexivity|exact (old_copyb_sound _ H2)].
Qed.

(** Not removed: the second copying throws, the run after it is content. *)
Definition not_removed : list cevent := cruns whole_run ++ do_copy ++ rebuild ++ do_copy ++ idle_later ++ do_copy.
Lemma not_removed_old : exists s, old_copy_after false not_removed s.
Proof. apply old_copy_case. vm_compute. reflexivity. Qed.
(** The process ends between the build and the copying. *)
Definition ended_early : list cevent := cruns whole_run ++ do_copy ++ rebuild ++ idle_later ++ do_copy.
Lemma ended_early_old : exists s, old_copy_after true ended_early s.
Proof. apply old_copy_case. vm_compute. reflexivity. Qed.
(** Copying fails once the old copy is removed. *)
Definition copy_failed : list cevent := cruns whole_run ++ do_copy ++ rebuild ++ [CCopy false None] ++ idle_later ++ do_copy.
Lemma copy_failed_old : exists s, old_copy_after true copy_failed s.
Proof. apply old_copy_case. vm_compute. reflexivity. Qed.
(** The copy is deleted. *)
Definition copy_deleted : list cevent := cruns whole_run ++ do_copy ++ [CTouch None] ++ idle_later ++ do_copy.
Lemma copy_deleted_old : exists s, old_copy_after true copy_deleted s.
Proof. apply old_copy_case. vm_compute. reflexivity. Qed.
(** The library is given by name ("-lrandom", the second method of the example),
    so the application is not built again when the library is. *)
Definition cName : cfg := CFG ["/p/a.cpp"] ["/p/g.h"] [] [] ["-ll"] [] ["/p/_b/l"] [] ["-O1"] [] [] [] [] [] [] [] [].
Definition registration_name : list pevent := [PBuild "lib" cLib ["/p/l.cpp"]; PBuild "app" cName ["/p/a.cpp"]].
Definition by_name : list cevent :=
  cruns (registration_name ++ PRun 2 reg1 :: first_run) ++ do_copy ++
  cruns ([PStop []; PEdit "/p/l.cpp" (Some 5%N)] ++ registration_name ++ PRun 2 reg1 :: gen_idle ++ build_steps "lib" "/p/l.cpp" true 6 ++ idle_steps "app") ++
  do_copy.
Lemma by_name_old : exists s, old_copy_after true by_name s.
Proof. apply old_copy_case. vm_compute. reflexivity. Qed.
