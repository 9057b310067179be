(** Late calls: concrete processes. *)
From Verif Require Import Prelude Proof_Prelude Model_Path Model_Json Model_Schema Model_Command Model_ToolchainConfig Model_Target Model_Sync Spec_Sync
  Model_Api Spec_Api Spec_Target Proof_TargetBase Proof_TargetCase Proof_Api Proof_ApiCase Model_Late Spec_Late.

Definition early : list call := [AddSource "a.cpp" ""; AddSource "b.cpp" ""; AddHeader "h.h" ""].
Definition late_options : list call := [AddFlag FCpp "-O2"; AddIncludeDir "inc" false; AddLibDep "m"].
Definition late_files : list call := [AddCompileDependency "dep"; AddHeaderAbsolute "/p/pch.h"; AddLinkDependencyAbsolute "/p/l.a"].
Definition ok_or (r : outcome tschema) : tschema := match r with Ok u => u | Fatal => ts_default end.
Definition late_u0 : tschema := ok_or (api_run ae0 (new_target tf0) early).
Definition late_u1 : tschema := ok_or (api_run ae0 late_u0 late_options).
Definition late_u2 : tschema := ok_or (api_run ae0 late_u0 late_files).
Lemma late_u0_ok : api_run (AE (te_tc e0) (te_root e0) ls0) (new_target tf0) early = Ok late_u0.
Proof. vm_compute. reflexivity. Qed.
Lemma late_u1_ok : api_run (AE (te_tc e0) (te_root e0) ls0) late_u0 late_options = Ok late_u1.
Proof. vm_compute. reflexivity. Qed.
Lemma late_u2_ok : api_run (AE (te_tc e0) (te_root e0) ls0) late_u0 late_files = Ok late_u2.
Proof. vm_compute. reflexivity. Qed.
Definition all_tasks (srcs : list string) : list event := EvObjCheck :: compiles (map (fun s => (s, XOk)) srcs) ++ [EvLinkCheck; EvLinkExec XOk].
Definition fineb (e : tenv) (c : cfg) (ord : list string) : bool :=
  forallb (fun r => match r with FOk cmd => negb (String.eqb cmd "") | _ => false end) (all_commands e c ord).
Lemma fineb_sound e c ord : fineb e c ord = true -> commands_fine e c ord.
Proof.
  intros H r I. unfold fineb in H. rewrite forallb_forall in H. specialize (H r I). destruct r as [cmd| |]; try discriminate H.
  exists cmd. split; [reflexivity|]. intros ->. discriminate H.
Qed.
Lemma one_processb run : forallb (fun ev => match ev with EvStart _ _ => false | _ => true end) run = true -> one_process run.
Proof. intros H c o I. rewrite forallb_forall in H. specialize (H _ I). discriminate H. Qed.

Lemma lexec_case e l evs (P : lstate -> bool) : match lexec e l evs with Some l' => P l' | None => false end = true ->
  exists l', lexec e l evs = Some l' /\ P l' = true.
Proof. destruct (lexec e l evs) as [l'|]; [|discriminate]. intros H. exists l'. split; [reflexivity|exact H]. Qed.

(** A flag, a directory and a library given after Build(), then given before it. *)
Definition lost_process : list levent := late_run e0 late_u0 ordA ls0 late_options (all_tasks ordA ++ [EvEnd WOk]).
Lemma lost_case : exists l, lexec e0 (LS (init disk0) false) lost_process = Some l /\ s_ok (l_st l) = true /\
  ~ obj_current e0 (cfg_of late_u1) (d_mt (s_disk (l_st l))) (s_disk (l_st l)) "/p/a.cpp" /\
  exists st2, exec e0 (l_st l) (idle_run (cfg_of late_u1) ordA) = Some st2 /\ s_ok st2 = true /\ s_log st2 = s_log (l_st l) /\
    ~ obj_current e0 (cfg_of late_u1) (d_mt (s_disk st2)) (s_disk st2) "/p/a.cpp".
Proof.
  destruct (lexec_case e0 (LS (init disk0) false) lost_process
    (fun l => s_ok (l_st l) && obj_staleb e0 (cfg_of late_u1) (s_disk (l_st l)) "/p/a.cpp" && Nat.eqb (length (s_log (l_st l))) 3 &&
       match exec e0 (l_st l) (idle_run (cfg_of late_u1) ordA) with
       | Some st2 => s_ok st2 && Nat.eqb (length (s_log st2)) 3 && obj_staleb e0 (cfg_of late_u1) (s_disk st2) "/p/a.cpp" | None => false end)) as (l & E & P).
  { vm_compute. reflexivity. }
  exists l. split; [exact E|]. rewrite !andb_true_iff in P. destruct P as [[[A B] C] D]. split; [exact A|]. split; [exact (obj_staleb_sound _ _ _ _ B)|].
  destruct (exec e0 (l_st l) (idle_run (cfg_of late_u1) ordA)) as [st2|] eqn:X; [|discriminate D]. rewrite !andb_true_iff in D. destruct D as [[D1 D2] D3].
  exists st2. split; [reflexivity|]. split; [exact D1|]. split; [|exact (obj_staleb_sound _ _ _ _ D3)].
  clear - E X. vm_compute in E. injection E as <-. vm_compute in X. injection X as <-. reflexivity.
Qed.

(** A source that an earlier run has compiled, given after Build(): the link forgets it. *)
Definition late_source : list call := [AddSource "b.cpp" ""].
Definition src_u0 : tschema := ok_or (api_run ae0 (new_target tf0) [AddSource "a.cpp" ""]).
Definition src_u1 : tschema := ok_or (api_run ae0 src_u0 late_source).
Definition source_process : list levent :=
  map LEv (full_run (cfg_of src_u1) ordA ordA) ++ LEv (EvEdit "/p/a.cpp" (Some 2%N)) ::
  late_run e0 src_u0 ["/p/a.cpp"] ls0 late_source (all_tasks ["/p/a.cpp"] ++ [EvEnd WOk]).
Definition names_objectb (e : tenv) (d : disk) (c : string) : bool := match d_tgt d with Some l => String.eqb (l_cmd l) c | None => false end.
Lemma forgotten_case : exists l, lexec e0 (LS (init disk0) false) source_process = Some l /\ s_ok (l_st l) = true /\
  ~ tgt_current e0 (cfg_of src_u1) (d_mt (s_disk (l_st l))) (s_disk (l_st l)).
Proof.
  destruct (lexec_case e0 (LS (init disk0) false) source_process
    (fun l => s_ok (l_st l) && match d_tgt (s_disk (l_st l)) with
       | Some x => forallb (fun ord => match link_command e0 (cfg_of src_u1) ord with FOk cmd => negb (String.eqb cmd (l_cmd x)) | _ => true end)
                     [["/p/a.cpp"; "/p/b.cpp"]; ["/p/b.cpp"; "/p/a.cpp"]]
       | None => false end)) as (l & E & P).
  { vm_compute. reflexivity. }
  exists l. split; [exact E|]. apply andb_true_iff in P as [A B]. split; [exact A|]. intros (x & ord & T & _ & Q & L & _). rewrite T in B.
  assert (O : ord = ["/p/a.cpp"; "/p/b.cpp"] \/ ord = ["/p/b.cpp"; "/p/a.cpp"]).
  { assert (SS : sources (cfg_of src_u1) = ["/p/a.cpp"; "/p/b.cpp"]) by (vm_compute; reflexivity). rewrite SS in Q. symmetry in Q.
    apply Permutation_length_2_inv in Q. exact Q. }
  cbn [forallb] in B. rewrite !andb_true_iff in B. destruct B as [B1 [B2 _]].
  destruct O as [-> | ->]; rewrite L in *; rewrite String.eqb_refl in *; discriminate.
Qed.
