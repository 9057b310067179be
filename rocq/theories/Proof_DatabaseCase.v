(** The compilation database over several runs: concrete histories. *)
From Verif Require Import Prelude Proof_Prelude Model_Path Model_Json Model_Schema Model_Command Spec_Command Model_ToolchainConfig
  Model_Target Spec_Target Proof_TargetStep Proof_TargetCase Model_Reg Spec_Reg Model_Project Spec_Project Proof_ProjectCase
  Model_CompileCommands Model_Database Spec_Database Proof_Database3.

(** ** Checking a history by computation *)

Definition unfinishedb (st : tstate) : bool :=
  match stored (s_disk st) with Some l => negb (ts_target_linked l) | None => true end.
Definition wadmissibleb (added used : list string) (w : wstate) (ev : wevent) (w' : wstate) : bool :=
  match ev with
  | WRun (PForget _) => is_nil (p_built (w_p w))
  | WRun (PBuild i c _) => negb (mem_str i used) || negb (is_nil (pchs c))
  | WRun (PStop _) =>
      match w_stage w with WDone => true | _ => false end || forallb (fun i => negb (mem_str i (w_built w))) added ||
      existsb (fun x => mem_str (fst x) added && unfinishedb (snd (snd x))) (p_targets (w_p w'))
  | WRun _ => true
  | WGenerate r =>
      match r with CWShort _ => false | _ => true end &&
      match p_run (w_p w) with
      | Some (_, r, _) => forallb (fun i => mem_str i (map fst (p_built (w_p w))) && mem_str i (rg_built r)) added
      | None => is_nil added
      end
  | WTouch _ => false
  end.
Lemma unfinishedb_sound st : unfinishedb st = true -> unfinished st.
Proof. unfold unfinishedb, unfinished. intros H l E. rewrite E in H. apply negb_true_iff. exact H. Qed.
Lemma wadmissibleb_sound added used w ev w' : wadmissibleb added used w ev w' = true -> wadmissible added used w ev w'.
Proof.
  destruct ev as [pe|r|t]; [| |discriminate].
  - destruct pe; cbn [wadmissibleb wadmissible]; intros H; try exact Logic.I.
    + destruct (p_built (w_p w)); [reflexivity|discriminate].
    + intros Hi. apply mem_str_In in Hi. rewrite Hi in H. cbn [negb orb] in H. intros E. rewrite E in H. discriminate.
    + apply orb_true_iff in H as [H|H]; [apply orb_true_iff in H as [H|H]|].
      * left. destruct (w_stage w); try discriminate. reflexivity.
      * right. left. intros i Hi K. rewrite forallb_forall in H. specialize (H i Hi). apply mem_str_In in K. rewrite K in H. discriminate.
      * right. right. apply existsb_exists in H as ([i [e st]] & H1 & H2). cbn [fst snd] in H2. apply andb_true_iff in H2 as [H2 H3].
        apply mem_str_In in H2. exists i, e, st. split; [exact H2|]. split; [exact H1|exact (unfinishedb_sound _ H3)].
  - cbn [wadmissibleb wadmissible]. intros H. apply andb_true_iff in H as [H1 H2]. split; [intros n ->; discriminate|].
    intros i Hi. destruct (p_run (w_p w)) as [[[k rg] x]|]; [|destruct added; [destruct Hi|discriminate]].
    rewrite forallb_forall in H2. specialize (H2 i Hi). apply andb_true_iff in H2 as [H2 H3]. apply mem_str_In in H2, H3.
    split; [exact H2|]. exists k, rg, x. auto.
Qed.

Fixpoint wfollow (build : string) (added used : list string) (w : wstate) (evs : list wevent) : option (list string * wstate) :=
  match evs with
  | [] => Some (used, w)
  | ev :: r =>
      match wstep build added w ev with
      | Some w' => if wadmissibleb added used w ev w' then wfollow build added (wtrack used ev) w' r else None
      | None => None
      end
  end.
Lemma wfollow_whistory build added l gens db evs : forall pre used w used' w',
  whistory build added l gens db pre used w -> wfollow build added used w evs = Some (used', w') ->
  whistory build added l gens db (pre ++ evs) used' w'.
Proof.
  induction evs as [|ev evs IH]; intros pre used w used' w' H F; cbn [wfollow] in F.
  - injection F as <- <-. rewrite app_nil_r. exact H.
  - destruct (wstep build added w ev) as [w1|] eqn:S; [|discriminate]. destruct (wadmissibleb added used w ev w1) eqn:A; [|discriminate].
    specialize (IH _ _ _ _ _ (whistory_snoc _ _ _ _ _ _ _ _ _ _ H S (wadmissibleb_sound _ _ _ _ _ A)) F). rewrite <- app_assoc in IH. exact IH.
Qed.
Lemma wfollow_case build added l gens db evs (P : wstate -> bool) :
  match wfollow build added [] (winit l gens db) evs with Some (_, w) => P w | None => false end = true ->
  exists used w, whistory build added l gens db evs used w /\ P w = true.
Proof.
  intros H. destruct (wfollow build added [] (winit l gens db) evs) as [[used w]|] eqn:F; [|discriminate].
  exists used, w. split; [|exact H]. exact (wfollow_whistory build added l gens db evs [] [] _ used w (whistory_nil _ _ _ _ _) F).
Qed.
Lemma wexec_case build added w0 evs (P : wstate -> bool) :
  match wexec build added w0 evs with Some w => P w | None => false end = true ->
  exists w, wexec build added w0 evs = Some w /\ P w = true.
Proof. destruct (wexec build added w0 evs) as [w|]; [|discriminate]. intros H. exists w. auto. Qed.

(** ** What is in the file *)

Lemma join_in sep (l : list string) x : In x l -> exists a b, join sep l = a +++ x +++ b.
Proof.
  intros H. apply in_split in H as (l1 & l2 & ->). induction l1 as [|y l1 IH].
  - cbn [app]. destruct l2 as [|z l2]; [exists "", ""; cbn [join]; rewrite sapp_nil_r; reflexivity|].
    exists "", (sep +++ join sep (z :: l2)). reflexivity.
  - destruct IH as (a & b & E). exists (y +++ sep +++ a), b. cbn [app].
    replace (join sep (y :: l1 ++ x :: l2)) with (y +++ sep +++ join sep (l1 ++ x :: l2)) by (destruct l1; reflexivity).
    rewrite E, !sapp_assoc. reflexivity.
Qed.

Lemma current_entries build added p db : database_current build added p db ->
  forall id, In id added -> exists e st c text, In (id, (e, st)) (p_targets p) /\ In (id, c) (p_built p) /\ db = Some text /\
    forall s, In s (sources c) -> exists cmd a b, compile_command e c s = FOk cmd /\
      text = a +++ cc_entry (to_display_string build) cmd s +++ b.
Proof.
  intros (ts & E & F) id Hid. assert (K : exists t, In t ts /\ exists e st c, In (id, (e, st)) (p_targets p) /\ In (id, c) (p_built p) /\
      (forall s, In s (cc_sources t) <-> In s (sources c)) /\ (forall s, In s (sources c) -> compile_command e c s = FOk (cc_command t s))).
  { clear E. induction F as [|i t l m H F IH]; [destruct Hid|]. destruct Hid as [->|Hid].
    - exists t. split; [left; reflexivity|exact H].
    - destruct (IH Hid) as (t' & H1 & H2). exists t'. split; [right; exact H1|exact H2]. }
  destruct K as (t & Ht & e & st & c & H1 & H2 & H3 & H4). exists e, st, c, (cc_text build ts). split; [exact H1|]. split; [exact H2|]. split; [exact E|].
  intros s Hs. exists (cc_command t s).
  assert (In (cc_entry (to_display_string build) (cc_command t s) s) (cc_entries build ts)) as K.
  { apply in_flat_map. exists t. split; [exact Ht|].
    exact (in_map (fun src => cc_entry (to_display_string build) (cc_command t src) src) _ _ (proj2 (H3 s) Hs)). }
  destruct (join_in ("," +++ Model_Json.nl) _ _ K) as (a & b & Ej). exists ("[" +++ Model_Json.nl +++ a), (b +++ Model_Json.nl +++ "]"). split; [exact (H4 s Hs)|].
  unfold cc_text. rewrite Ej, !sapp_assoc. reflexivity.
Qed.

Fixpoint has (sub t : string) : bool :=
  String.prefix sub t || match t with EmptyString => false | String _ r => has sub r end.
Lemma prefix_app sub t : String.prefix sub (sub +++ t) = true.
Proof. induction sub as [|x sub IH]; [destruct t; reflexivity|]. cbn. destruct (Ascii.ascii_dec x x) as [_|K]; [exact IH|destruct (K eq_refl)]. Qed.
Lemma has_app sub a b : has sub (a +++ sub +++ b) = true.
Proof.
  induction a as [|x a IH].
  - cbn [String.append]. pose proof (prefix_app sub b) as K. destruct (sub +++ b); cbn [has]; rewrite K; reflexivity.
  - change (String x a +++ sub +++ b) with (String x (a +++ sub +++ b)). cbn [has]. rewrite IH, orb_true_r. reflexivity.
Qed.

(** A source of target [id] whose current command is not in the file. *)
Definition missingb (build : string) (w : wstate) (id : string) : bool :=
  nodup_str (map fst (p_targets (w_p w))) && nodup_str (map fst (p_built (w_p w))) &&
  match w_db w, assoc id (p_targets (w_p w)), assoc id (p_built (w_p w)) with
  | None, _, _ => true
  | Some text, Some (e, _), Some c =>
      existsb (fun s => match compile_command e c s with
                        | FOk cmd => negb (has (cc_entry (to_display_string build) cmd s) text)
                        | _ => false end) (sources c)
  | _, _, _ => false
  end.
Lemma missingb_sound build added w id : In id added -> missingb build w id = true -> ~ database_current build added (w_p w) (w_db w).
Proof.
  intros Hid H K. unfold missingb in H. apply andb_true_iff in H as [H H3]. apply andb_true_iff in H as [H1 H2].
  apply nodup_str_NoDup in H1, H2. destruct (current_entries _ _ _ _ K id Hid) as (e & st & c & text & K1 & K2 & K3 & K4).
  rewrite K3, (assoc_NoDup_In _ _ _ H1 K1), (assoc_NoDup_In _ _ _ H2 K2) in H3. apply existsb_exists in H3 as (s & Hs & H3).
  destruct (K4 s Hs) as (cmd & a & b & Ec & Et). rewrite Ec, Et, has_app in H3. discriminate.
Qed.

(** ** The program: the library, the application and the generator of Proof_ProjectCase.v *)

Definition both : list string := ["lib"; "app"].
Definition dir : string := "/p/_b".
Definition runs (l : list pevent) : list wevent := map WRun l.
Definition whole_run : list pevent := registration ++ PRun 2 reg1 :: first_run.
Definition idle_again : list pevent := registration ++ PRun 2 reg1 :: gen_idle ++ idle_steps "lib" ++ idle_steps "app".
Definition doneb (w : wstate) : bool := match w_stage w with WDone => true | _ => false end.

(** The first process is killed when the library is built and the application is
    not; the second one builds the rest and writes the file; then the library is
    edited and built again; the last one finds nothing to do. *)
Definition several_runs : list wevent :=
  runs (registration ++ PRun 2 reg1 :: gen_steps 2 ++ build_steps "lib" "/p/l.cpp" true 3 ++ [PBegin "app"; PStep "app" EvObjCheck None; PStop []]) ++
  runs (registration ++ PRun 2 reg1 :: gen_idle ++ idle_steps "lib" ++ build_steps "app" "/p/a.cpp" true 4) ++ [WGenerate CWOk] ++
  runs edit_lib ++ runs (PRun 2 reg1 :: second_run) ++ [WGenerate CWOk] ++
  runs (PStop [] :: idle_again) ++ [WGenerate CWOk].
Lemma several_runs_case : exists used w, whistory dir both proj gens1 None several_runs used w /\ doneb w = true.
Proof. apply wfollow_case. vm_compute. reflexivity. Qed.

(** Nothing is built by the last run and the file is not as it should be. *)
Definition stale_after (l : list (string * (tenv * disk))) (evs : list wevent) (w : wstate) : Prop :=
  wexec dir both (winit l gens1 None) evs = Some w /\ w_stage w = WDone /\ ~ database_current dir both (w_p w) (w_db w).
Lemma stale_case (l : list (string * (tenv * disk))) evs id : In id both ->
  match wexec dir both (winit l gens1 None) evs with Some w => doneb w && missingb dir w id | None => false end = true ->
  exists w, stale_after l evs w.
Proof.
  intros Hid H. apply wexec_case in H as (w & X & H). apply andb_true_iff in H as [H1 H2]. exists w. split; [exact X|].
  split; [unfold doneb in H1; destruct (w_stage w); try discriminate; reflexivity|exact (missingb_sound _ _ _ _ Hid H2)].
Qed.

(** The process ends after the build, before Generate. *)
Definition ended_before : list wevent := runs (whole_run ++ PStop [] :: idle_again) ++ [WGenerate CWOk].
Lemma ended_before_stale : exists w, stale_after proj ended_before w.
Proof. apply (stale_case _ _ "lib"); [left; reflexivity|vm_compute; reflexivity]. Qed.

(** The file is deleted. *)
Definition deleted : list wevent := runs whole_run ++ [WGenerate CWOk; WTouch None] ++ runs (PStop [] :: idle_again) ++ [WGenerate CWOk].
Lemma deleted_stale : exists w, stale_after proj deleted w.
Proof. apply (stale_case _ _ "lib"); [left; reflexivity|vm_compute; reflexivity]. Qed.

(** A run that builds the edited application only: the library is not listed any more. *)
Definition reg_app : reg := REG ["app"] [] [].
Definition left_out : list wevent :=
  runs whole_run ++ [WGenerate CWOk] ++
  runs (PStop [] :: PEdit "/p/a.cpp" (Some 5%N) :: PBuild "app" cApp ["/p/a.cpp"] :: PRun 2 reg_app :: build_steps "app" "/p/a.cpp" true 6) ++
  [WGenerate CWOk] ++ runs (PStop [] :: idle_again) ++ [WGenerate CWOk].
Lemma left_out_stale : exists w, stale_after proj left_out w.
Proof. apply (stale_case _ _ "lib"); [left; reflexivity|vm_compute; reflexivity]. Qed.

(** The application is built with a PCH, then without one. *)
Definition cPch (pch : list string) : cfg :=
  CFG ["/p/a.cpp"] ["/p/g.h"] pch ["/p/_b/l/l.a"] [] [] [] [] ["-O1"] [] ["-include p.h"] [] [] [] [] [] [].
Definition files2 : Model_Target.times := fun f => if mem_str f ["/p/a.cpp"; "/p/l.cpp"; "/p/p.h"] then Some 1%N else None.
Definition disk2 : disk := DK files2 None (fun _ => None) None None false (fun _ => false) false.
Definition proj2 : list (string * (tenv * disk)) := [("lib", (eL, disk2)); ("app", (e0, disk2))].
Definition no_pch_any_more : list wevent :=
  runs (PBuild "lib" cLib ["/p/l.cpp"] :: PBuild "app" (cPch ["/p/p.h"]) ["/p/a.cpp"] :: PRun 2 reg1 :: gen_steps 2 ++
        build_steps "lib" "/p/l.cpp" true 3 ++
        [PBegin "app"; PStep "app" EvPchCheck None; PStep "app" (EvPchExec XOk) None; PStep "app" EvObjCheck None; PStep "app" (EvCompile "/p/a.cpp" XOk) None;
         PStep "app" EvLinkCheck None; PStep "app" (EvLinkExec XOk) (Some (Some 4%N)); PStep "app" (EvEnd WOk) None; PEnd "app" true]) ++
  [WGenerate CWOk] ++
  runs (PStop [] :: PBuild "lib" cLib ["/p/l.cpp"] :: PBuild "app" (cPch []) ["/p/a.cpp"] :: PRun 2 reg1 :: gen_idle ++ idle_steps "lib" ++ idle_steps "app") ++
  [WGenerate CWOk].
Lemma no_pch_stale : exists w, stale_after proj2 no_pch_any_more w.
Proof. apply (stale_case _ _ "app"); [right; left; reflexivity|vm_compute; reflexivity]. Qed.

(** A full write that was cut short and reported as a success. *)
Definition cut_short : list wevent := runs whole_run ++ [WGenerate (CWShort 5)] ++ runs (PStop [] :: idle_again) ++ [WGenerate CWOk].
Lemma cut_short_stale : exists w, stale_after proj cut_short w.
Proof. apply (stale_case _ _ "lib"); [left; reflexivity|vm_compute; reflexivity]. Qed.
