(** Concrete interleavings of two processes in one build directory. *)
From Verif Require Import Prelude Proof_Prelude Model_Path Model_Json Model_Schema Proof_Schema Model_Command Spec_Command
  Model_ToolchainConfig Model_Target Spec_Target Proof_TargetBase Proof_TargetInv Proof_TargetRun
  Proof_TargetStep Proof_TargetStep2 Proof_TargetMain Proof_TargetCase Model_Two Spec_Two Proof_Two Proof_TwoMain.

Definition orderlyb (e : tenv) (c : cfg) (ev : event) : bool :=
  match ev with
  | EvStart c' ord => cfg_eqb c' c &&
      forallb (fun r => match r with FOk cmd => negb (String.eqb cmd "") | _ => true end) (all_commands e c ord)
  | EvPchCheck | EvObjCheck | EvLinkCheck | EvCrash => true
  | EvPchExec XOk => true
  | EvCompile _ XOk => true
  | EvLinkExec XOk => true
  | EvEnd WOk | EvEnd WKeep => true
  | _ => false
  end.
Lemma orderlyb_sound e c ev : orderlyb e c ev = true -> orderly e c ev.
Proof.
  destruct ev; cbn [orderlyb orderly]; try discriminate; try tauto.
  - intros H. apply andb_true_iff in H as [A B]. split; [apply cfg_eqb_sound; exact A|].
    intros K. rewrite forallb_forall in B. specialize (B _ K). discriminate.
  - destruct r; try discriminate. reflexivity.
  - destruct r; try discriminate. reflexivity.
  - destruct r; try discriminate. reflexivity.
  - destruct w; try discriminate; auto.
Qed.
Lemma orderly_all e (f : nat -> cfg) l : forallb (fun x => orderlyb e (f (fst x)) (snd x)) l = true ->
  Forall (fun x => orderly e (f (fst x)) (snd x)) l.
Proof. intros H. rewrite forallb_forall in H. apply Forall_forall. intros x Hx. apply orderlyb_sound. exact (H x Hx). Qed.
Lemma sh_case e s l (P : shared -> bool) :
  match sh_exec e s l with Some s' => P s' | None => false end = true -> exists s', sh_exec e s l = Some s' /\ P s' = true.
Proof. destruct (sh_exec e s l) as [s'|]; [|discriminate]. intros H. exists s'. split; [reflexivity|exact H]. Qed.

Definition idleb (st : tstate) : bool := match s_pc st with Idle => true | _ => false end.
Lemma idleb_sound st : idleb st = true -> s_pc st = Idle.
Proof. unfold idleb. destruct (s_pc st); [reflexivity|discriminate..]. Qed.

(** ** Different options: -O1 in process 0, -O2 in process 1 *)
Definition mix : list (nat * event) :=
  [(0, EvStart cA ordA); (1, EvStart cB ordA); (0, EvObjCheck); (1, EvObjCheck);
   (0, EvCompile "/p/a.cpp" XOk); (1, EvCompile "/p/a.cpp" XOk); (1, EvCompile "/p/b.cpp" XOk); (0, EvCompile "/p/b.cpp" XOk);
   (1, EvLinkCheck); (1, EvLinkExec XOk); (0, EvLinkCheck); (0, EvLinkExec XOk); (1, EvEnd WOk); (0, EvEnd WOk)].
Definition opts (i : nat) : cfg := if Nat.eqb i 0 then cA else cB.
Lemma mix_refuted : exists s1 s2, sh_exec e0 (sh_start disk0) mix = Some s1 /\
  Forall (fun x => orderly e0 (opts (fst x)) (snd x)) mix /\ s_ok (sh_proc s1 0) = true /\ s_ok (sh_proc s1 1) = true /\
  sh_exec e0 s1 (map (pair 0) (idle_run cA ordA)) = Some s2 /\ s_ok (sh_proc s2 0) = true /\
  ~ all_current e0 cA (sh_disk s2).
Proof.
  destruct (sh_case e0 (sh_start disk0) mix (fun s1 => s_ok (sh_proc s1 0) && s_ok (sh_proc s1 1) &&
    match sh_exec e0 s1 (map (pair 0) (idle_run cA ordA)) with
    | Some s2 => s_ok (sh_proc s2 0) && obj_staleb e0 cA (sh_disk s2) "/p/a.cpp" | None => false end)) as (s1 & X & P).
  { vm_compute. reflexivity. }
  apply andb_true_iff in P as [P P2]. apply andb_true_iff in P as [P0 P1].
  destruct (sh_exec e0 s1 (map (pair 0) (idle_run cA ordA))) as [s2|] eqn:X2; [|discriminate].
  apply andb_true_iff in P2 as [P2 P3]. exists s1, s2. split; [exact X|]. split; [|split; [exact P0|split; [exact P1|
    split; [exact X2|split; [exact P2|]]]]].
  - apply (orderly_all e0 opts). vm_compute. reflexivity.
  - intros (_ & K & _). apply (obj_staleb_sound _ _ _ _ P3). apply K. left. reflexivity.
Qed.

(** ** The same options, but a command of process 1 fails *)
Definition torn : list (nat * event) :=
  [(0, EvStart cA ordA); (1, EvStart cA ordA); (0, EvObjCheck); (1, EvObjCheck);
   (0, EvCompile "/p/a.cpp" XOk); (0, EvCompile "/p/b.cpp" XOk); (0, EvLinkCheck); (0, EvLinkExec XOk);
   (1, EvCompile "/p/a.cpp" (XFail None)); (0, EvEnd WOk); (1, EvCrash)].
Lemma torn_refuted : exists s1 s2, sh_exec e0 (sh_start disk0) torn = Some s1 /\
  (forall i c ord, In (i, EvStart c ord) torn -> c = cA) /\ s_ok (sh_proc s1 0) = true /\
  sh_exec e0 s1 (map (pair 0) (idle_run cA ordA)) = Some s2 /\ s_ok (sh_proc s2 0) = true /\
  ~ all_current e0 cA (sh_disk s2).
Proof.
  destruct (sh_case e0 (sh_start disk0) torn (fun s1 => s_ok (sh_proc s1 0) &&
    match sh_exec e0 s1 (map (pair 0) (idle_run cA ordA)) with
    | Some s2 => s_ok (sh_proc s2 0) && obj_staleb e0 cA (sh_disk s2) "/p/a.cpp" | None => false end)) as (s1 & X & P).
  { vm_compute. reflexivity. }
  apply andb_true_iff in P as [P0 P2].
  destruct (sh_exec e0 s1 (map (pair 0) (idle_run cA ordA))) as [s2|] eqn:X2; [|discriminate].
  apply andb_true_iff in P2 as [P2 P3]. exists s1, s2. split; [exact X|]. split; [|split; [exact P0|
    split; [exact X2|split; [exact P2|]]]].
  - intros i c ord K. unfold torn in K. cbn [In] in K.
    repeat (destruct K as [K|K]; [first [discriminate K|injection K as _ <- _; reflexivity]|]). destruct K.
  - intros (_ & K & _). apply (obj_staleb_sound _ _ _ _ P3). apply K. left. reflexivity.
Qed.

(** ** The theorem at work: a header of the PCH was edited after a build; three
    processes, one of which is killed and one of which starts late *)
Definition past : list event := full_run cP ordA ["/p/a.cpp"; "/p/b.cpp"] ++ [EvEdit "/p/b.cpp" (Some 5%N); EvEdit "/p/pch.h" (Some 7%N)].
Definition race1 : list (nat * event) :=
  [(0, EvStart cP ordA); (1, EvStart cP ["/p/a.cpp"; "/p/b.cpp"]); (0, EvPchCheck); (0, EvPchExec XOk); (0, EvObjCheck);
   (1, EvPchCheck); (0, EvCompile "/p/a.cpp" XOk); (2, EvStart cP ordA); (2, EvPchCheck); (1, EvPchExec XOk); (1, EvObjCheck);
   (1, EvCompile "/p/b.cpp" XOk); (2, EvPchExec XOk); (2, EvCrash); (0, EvCompile "/p/b.cpp" XOk); (0, EvLinkCheck); (0, EvLinkExec XOk)].
Definition race2 : list (nat * event) :=
  [(1, EvCompile "/p/a.cpp" XOk); (2, EvStart cP ordA); (2, EvPchCheck); (1, EvLinkCheck); (1, EvLinkExec XOk); (2, EvObjCheck);
   (1, EvEnd WOk); (2, EvLinkCheck); (2, EvEnd WOk)].
Lemma race_case : exists h st s1 s2, history Forward e0 disk0 past h st /\ s_pc st = Idle /\ permitted e0 h cP /\
  (forall f, In f (tracked cP) -> d_mt (s_disk st) f <> None) /\
  Forall (fun x => orderly e0 cP (snd x)) (race1 ++ (0, EvEnd WOk) :: race2) /\
  sh_exec e0 (sh_start (s_disk st)) (race1 ++ [(0, EvEnd WOk)]) = Some s1 /\ s_ok (sh_proc s1 0) = true /\
  sh_exec e0 s1 race2 = Some s2 /\ ~ all_current e0 cP (s_disk st) /\
  s_pc (sh_proc s2 1) = Idle /\ ord_ok ordA (sources cP) = true /\ forallb is_fok (all_commands e0 cP ordA) = true.
Proof.
  destruct (follow_case Forward e0 disk0 past (fun h st => idleb st && permittedb e0 h cP &&
    forallb (fun f => match d_mt (s_disk st) f with Some _ => true | None => false end) (tracked cP) && pch_staleb e0 cP (s_disk st) &&
    match sh_exec e0 (sh_start (s_disk st)) (race1 ++ [(0, EvEnd WOk)]) with
    | Some s1 => s_ok (sh_proc s1 0) && match sh_exec e0 s1 race2 with
        | Some s2 => idleb (sh_proc s2 1) | None => false end
    | None => false end)) as (h & st & H & P).
  { vm_compute. reflexivity. }
  apply andb_true_iff in P as [P P5]. apply andb_true_iff in P as [P P4]. apply andb_true_iff in P as [P P3].
  apply andb_true_iff in P as [P1 P2].
  destruct (sh_exec e0 (sh_start (s_disk st)) (race1 ++ [(0, EvEnd WOk)])) as [s1|] eqn:X1; [|discriminate].
  apply andb_true_iff in P5 as [P5 P6]. destruct (sh_exec e0 s1 race2) as [s2|] eqn:X2; [|discriminate].
  exists h, st, s1, s2. split; [exact H|]. split; [exact (idleb_sound st P1)|].
  split; [apply permittedb_sound; exact P2|]. split.
  { intros f Hf K. rewrite forallb_forall in P3. specialize (P3 f Hf). rewrite K in P3. discriminate P3. }
  split; [apply (orderly_all e0 (fun _ => cP)); vm_compute; reflexivity|].
  split; [exact X1|]. split; [exact P5|]. split; [exact X2|]. split.
  { intros (K & _). apply (pch_staleb_sound _ _ _ P4). apply K. apply contains_pch_iff. vm_compute. reflexivity. }
  split; [exact (idleb_sound _ P6)|]. split; vm_compute; reflexivity.
Qed.
