(** Executions of the shared-memory model, run by a function. *)
From Verif Require Import Prelude Model_Race Spec_Race Proof_Race Proof_RaceOrder.
From Coq Require Import Lia.

(** One trace of a piece of code, from a list of choices: 0 / 1 for the branches
    and for throwing, a number for loops and ids. *)
Fixpoint times_ (n : nat) (g : list nat -> option (list act * bool * list nat)) (l : list nat)
  : option (list act * bool * list nat) :=
  match n with
  | 0 => Some ([], true, l)
  | S n => match g l with
           | Some (t, true, r) =>
               match times_ n g r with Some (u, e, r') => Some (t ++ u, e, r') | None => None end
           | x => x
           end
  end.
Fixpoint pick_trace (c : cmd) (l : list nat) : option (list act * bool * list nat) :=
  match c with
  | Skip => Some ([], true, l)
  | Do_read x => Some ([Read x], true, l)
  | Do_write x => Some ([Write x], true, l)
  | May_throw => match l with 0 :: r => Some ([], true, r) | _ :: r => Some ([], false, r) | [] => None end
  | Seq c d => match pick_trace c l with
               | Some (t, true, r) =>
                   match pick_trace d r with Some (u, e, r') => Some (t ++ u, e, r') | None => None end
               | x => x
               end
  | Either c d => match l with 0 :: r => pick_trace c r | _ :: r => pick_trace d r | [] => None end
  | Many c => match l with n :: r => times_ n (pick_trace c) r | [] => None end
  | Pick f => match l with i :: r => pick_trace (f i) r | [] => None end
  | Locked m c => match pick_trace c l with
                  | Some (t, e, r) => Some (Acquire m :: t ++ [Release m], e, r) | None => None end
  | Try c h => match pick_trace c l with
               | Some (t, false, r) =>
                   match pick_trace h r with Some (u, e, r') => Some (t ++ u, e, r') | None => None end
               | x => x
               end
  end.
Lemma pick_sound c : forall l t e r, pick_trace c l = Some (t, e, r) -> trace c t e.
Proof.
  induction c as [|x|x| |c IHc d IHd|c IHc d IHd|c IHc|f IHf|m c IHc|c IHc h IHh]; intros l t e r; cbn [pick_trace].
  - intros E. injection E as <- <- _. constructor.
  - intros E. injection E as <- <- _. constructor.
  - intros E. injection E as <- <- _. constructor.
  - destruct l as [|[|n] l]; [discriminate| |]; intros E; injection E as <- <- _; constructor.
  - destruct (pick_trace c l) as [[[t1 [|]] r1]|] eqn:E1; [| |discriminate].
    + destruct (pick_trace d r1) as [[[u e2] r2]|] eqn:E2; [|discriminate].
      intros E. injection E as <- <- _. eapply t_seq; eauto.
    + intros E. injection E as <- <- _. apply t_seq_throw. eauto.
  - destruct l as [|[|n] l]; [discriminate| |]; intros E; [apply t_left|apply t_right]; eauto.
  - destruct l as [|n l]; [discriminate|]. revert l t e r.
    induction n as [|n IH]; intros l t e r; cbn [times_].
    + intros E. injection E as <- <- _. constructor.
    + destruct (pick_trace c l) as [[[t1 [|]] r1]|] eqn:E1; [| |discriminate].
      * destruct (times_ n (pick_trace c) r1) as [[[u e2] r2]|] eqn:E2; [|discriminate].
        intros E. injection E as <- <- _. eapply t_more; eauto.
      * intros E. injection E as <- <- _. apply t_more_throw. eauto.
  - destruct l as [|i l]; [discriminate|]. intros E. eapply t_pick. eapply IHf. exact E.
  - destruct (pick_trace c l) as [[[t1 e1] r1]|] eqn:E1; [|discriminate].
    intros E. injection E as <- <- _. apply t_locked. eauto.
  - destruct (pick_trace c l) as [[[t1 [|]] r1]|] eqn:E1; [| |discriminate].
    + intros E. injection E as <- <- _. apply t_try. eauto.
    + destruct (pick_trace h r1) as [[[u e2] r2]|] eqn:E2; [|discriminate].
      intros E. injection E as <- <- _. eapply t_catch; eauto.
Qed.

Definition exists_taskb (p : program) (k : task) : bool :=
  if in_dec task_eq_dec k (all_tasks p) then true else false.
Definition precedesb (p : program) (k l : task) : bool :=
  (match k, l with
   | K_pch b, K_obj c | K_obj b, K_src c _ | K_obj b, K_link c | K_src b _, K_link c
   | K_link b, K_end c | K_gen b, K_id c _ | K_gen b, K_store c | K_id b _, K_store c => Nat.eqb b c
   | _, _ => false
   end) || existsb (fun d => Nat.eqb (fst d) (of_builder k) && Nat.eqb (snd d) (of_builder l)) (pr_deps p).
Lemma precedesb_true p k l : precedes p k l -> precedesb p k l = true.
Proof.
  unfold precedesb. destruct 1; try (rewrite Nat.eqb_refl; reflexivity).
  apply orb_true_iff. right. apply existsb_exists. eexists. split; [exact H|].
  cbn [fst snd]. rewrite !Nat.eqb_refl. reflexivity.
Qed.

Inductive event := Start (k : task) (choices : list nat) | Go (k : task) | Finish (k : task).
Definition drive1 (p : program) (x : list (task * act) * mstate) (ev : event)
  : option (list (task * act) * mstate) :=
  let (log, s) := x in
  match ev with
  | Start k l =>
      match ms_task s k, pick_trace (code k) l with
      | Waiting, Some (t, _, _) =>
          if exists_taskb p k &&
             forallb (fun j => negb (precedesb p j k) ||
                        match ms_task s j with Ended => true | _ => false end) (all_tasks p)
          then Some (log, set_task s k (Running t)) else None
      | _, _ => None
      end
  | Go k =>
      match ms_task s k with
      | Running (a :: r) =>
          match after_act s k a with
          | Some s' => Some (log ++ [(k, a)], set_task s' k (Running r))
          | None => None
          end
      | _ => None
      end
  | Finish k => match ms_task s k with Running [] => Some (log, set_task s k Ended) | _ => None end
  end.
Fixpoint drive (p : program) (evs : list event) (x : list (task * act) * mstate)
  : option (list (task * act) * mstate) :=
  match evs with
  | [] => Some x
  | ev :: r => match drive1 p x ev with Some y => drive p r y | None => None end
  end.
Lemma drive1_sound p log s ev log' s' : mexec p log s -> drive1 p (log, s) ev = Some (log', s') ->
  mexec p log' s'.
Proof.
  intros E. destruct ev as [k l|k|k]; cbn [drive1].
  - destruct (ms_task s k) eqn:Ek; try discriminate.
    destruct (pick_trace (code k) l) as [[[t e] r]|] eqn:Et; [|discriminate].
    destruct (_ && _) eqn:B; [|discriminate]. intros X. injection X as <- <-.
    apply andb_prop in B. destruct B as [B1 B2]. rewrite forallb_forall in B2.
    replace log with (log ++ []) by apply app_nil_r.
    eapply m_snoc; [exact E|]. eapply m_start.
    + unfold exists_taskb in B1. destruct (in_dec task_eq_dec k (all_tasks p)); [|discriminate].
      apply all_tasks_in. assumption.
    + exact Ek.
    + intros j Xj Pj. apply all_tasks_in in Xj. specialize (B2 j Xj).
      rewrite (precedesb_true p j k Pj) in B2. cbn in B2.
      destruct (ms_task s j); [discriminate|discriminate|reflexivity].
    + eapply pick_sound. exact Et.
  - destruct (ms_task s k) as [|[|a r]|] eqn:Ek; try discriminate.
    destruct (after_act s k a) as [s1|] eqn:Ea; [|discriminate].
    intros X. injection X as <- <-. eapply m_snoc; [exact E|]. eapply m_act; eauto.
  - destruct (ms_task s k) as [|[|a r]|] eqn:Ek; try discriminate.
    intros X. injection X as <- <-. replace log with (log ++ []) by apply app_nil_r.
    eapply m_snoc; [exact E|]. eapply m_end. exact Ek.
Qed.
Lemma drive_sound p evs : forall log s log' s', mexec p log s -> drive p evs (log, s) = Some (log', s') ->
  mexec p log' s'.
Proof.
  induction evs as [|ev evs IH]; intros log s log' s' E; cbn [drive].
  - intros X. injection X as <- <-. exact E.
  - destruct (drive1 p (log, s) ev) as [[log1 s1]|] eqn:E1; [|discriminate].
    apply IH. exact (drive1_sound _ _ _ _ _ _ E E1).
Qed.

(** A target with two sources. *)
Definition two : program := Prog [A_target false 2] [].
(** Its object task: not loaded, so dirty; both sources are selected. *)
Definition objects_ : list event :=
  Start (K_obj 0) [1; 2; 0; 0; 0; 0; 0; 0; 0; 0] :: repeat (Go (K_obj 0)) 10 ++ [Finish (K_obj 0)].
(** Both compilations fail.  The first has compared the state and taken the lock;
    the second is about to compare. *)
Definition both_fail : list event :=
  objects_ ++ [Start (K_src 0 0) [1; 1; 1]; Start (K_src 0 1) [1; 1; 1];
               Go (K_src 0 0); Go (K_src 0 1); Go (K_src 0 0); Go (K_src 0 0)].
Definition state_of (x : option (list (task * act) * mstate)) : mstate :=
  match x with Some (_, s) => s | None => m_init end.
Definition log_of (x : option (list (task * act) * mstate)) : list (task * act) :=
  match x with Some (l, _) => l | None => [] end.
Lemma both_fail_runs : exists log, mexec two log (state_of (drive two both_fail ([], m_init))).
Proof.
  destruct (drive two both_fail ([], m_init)) as [[log s]|] eqn:E; [|vm_compute in E; discriminate E].
  exists log. exact (drive_sound two both_fail [] m_init log s (m_nil two) E).
Qed.
Lemma state_race : exists p log s, mexec p log s /\ race s TaskStateVar.
Proof.
  destruct both_fail_runs as [log E].
  exists two, log, (state_of (drive two both_fail ([], m_init))). split; [exact E|].
  exists (K_src 0 0), (K_src 0 1), (Write TaskStateVar), (Read TaskStateVar),
    [Release StateMutex], [Acquire StateMutex; Write TaskStateVar; Release StateMutex].
  split; [discriminate|]. split; [vm_compute; reflexivity|]. split; [vm_compute; reflexivity|].
  split; [right; reflexivity|]. split; [left; reflexivity|]. left. reflexivity.
Qed.

(** A generator with two ids, then a target with a precompiled header and two
    sources.  The two ids take turns, and so do the two compilations; the second
    source is recorded first. *)
Definition three : program := Prog [A_generator 2; A_target true 2] [(0, 1)].
Definition full (k : task) (l : list nat) : list event :=
  match pick_trace (code k) l with
  | Some (t, _, _) => Start k l :: repeat (Go k) (List.length t) ++ [Finish k]
  | None => []
  end.
Fixpoint turns (n : nat) (k l : task) : list event :=
  match n with 0 => [] | S n => Go k :: Go l :: turns n k l end.
Definition whole : list event :=
  full (K_gen 0) [1; 0; 2; 0; 1] ++
  [Start (K_id 0 0) [1; 1; 1; 0; 0; 0; 1; 0]; Start (K_id 0 1) [1; 1; 1; 0; 0; 0; 1; 0]] ++
  turns 12 (K_id 0 0) (K_id 0 1) ++ [Finish (K_id 0 0); Finish (K_id 0 1)] ++
  full (K_store 0) [1; 2; 0; 1; 1; 0; 0] ++
  full (K_pch 1) [1; 0; 1; 0; 0; 1; 0; 0] ++
  full (K_obj 1) [1; 2; 0; 0; 0; 0; 0; 0; 0; 0] ++
  [Start (K_src 1 0) [1; 0]; Start (K_src 1 1) [1; 0]] ++
  [Go (K_src 1 0); Go (K_src 1 1); Go (K_src 1 1); Go (K_src 1 1); Go (K_src 1 1); Go (K_src 1 1);
   Go (K_src 1 0); Go (K_src 1 0); Go (K_src 1 0); Go (K_src 1 0);
   Finish (K_src 1 0); Finish (K_src 1 1)] ++
  full (K_link 1) [1; 0; 0; 0; 1; 0] ++
  full (K_end 1) [1; 0].
Lemma whole_runs : exists log s, mexec three log s /\ all_ended three s /\
  records 1 log = [K_src 1 1; K_src 1 0] /\ List.length log = 123 /\ orderly three.
Proof.
  destruct (drive three whole ([], m_init)) as [[log s]|] eqn:E; [|vm_compute in E; discriminate E].
  exists log, s. split; [exact (drive_sound three whole [] m_init log s (m_nil three) E)|].
  assert (El : log = log_of (drive three whole ([], m_init))) by (rewrite E; reflexivity).
  assert (Es : s = state_of (drive three whole ([], m_init))) by (rewrite E; reflexivity).
  split; [|split; [|split]].
  - intros k X. apply all_tasks_in in X. rewrite Es.
    assert (B : forallb (fun k => match ms_task (state_of (drive three whole ([], m_init))) k with
                                  | Ended => true | _ => false end) (all_tasks three) = true)
      by (vm_compute; reflexivity).
    rewrite forallb_forall in B. specialize (B k X).
    destruct (ms_task (state_of (drive three whole ([], m_init))) k); [discriminate|discriminate|reflexivity].
  - rewrite El. vm_compute. reflexivity.
  - rewrite El. vm_compute. reflexivity.
  - exists (fun b => b). intros a b [X|[]]. injection X as <- <-. lia.
Qed.

(** The same run with the second id and the second source each done first. *)
Definition whole2 : list event :=
  full (K_gen 0) [1; 0; 2; 0; 1] ++
  full (K_id 0 1) [1; 1; 1; 0; 0; 0; 1; 0] ++ full (K_id 0 0) [1; 1; 1; 0; 0; 0; 1; 0] ++
  full (K_store 0) [1; 2; 0; 1; 1; 0; 0] ++
  full (K_pch 1) [1; 0; 1; 0; 0; 1; 0; 0] ++
  full (K_obj 1) [1; 2; 0; 0; 0; 0; 0; 0; 0; 0] ++
  full (K_src 1 0) [1; 0] ++ full (K_src 1 1) [1; 0] ++
  full (K_link 1) [1; 0; 0; 0; 1; 0] ++
  full (K_end 1) [1; 0].
Definition act_eq_dec (a b : act) : {a = b} + {a <> b}.
Proof. repeat decide equality. Defined.
Definition same_doings (log1 log2 : list (task * act)) : bool :=
  forallb (fun k => if list_eq_dec act_eq_dec (did k log1) (did k log2) then true else false)
          (map fst log1 ++ map fst log2).
Lemma same_doings_sound log1 log2 : same_doings log1 log2 = true -> forall k, did k log1 = did k log2.
Proof.
  intros B k. unfold same_doings in B. rewrite forallb_forall in B.
  destruct (in_dec task_eq_dec k (map fst log1 ++ map fst log2)) as [Ik|Nk].
  - specialize (B k Ik). destruct (list_eq_dec act_eq_dec (did k log1) (did k log2)); [assumption|discriminate].
  - rewrite !did_none; [reflexivity| |]; intros a Ia; apply Nk; apply in_app_iff; [right|left];
      apply (in_map fst) in Ia; exact Ia.
Qed.
Definition writes_in (l : loc) (log : list (task * act)) : bool :=
  existsb (fun x => if act_eq_dec (snd x) (Write l) then true else false) log.
Lemma writes_in_none l log : writes_in l log = false -> forall m, ~ In (m, Write l) log.
Proof.
  intros B m Im. assert (T : writes_in l log = true); [|congruence].
  apply existsb_exists. exists (m, Write l). split; [exact Im|]. cbn [snd].
  destruct (act_eq_dec (Write l) (Write l)); [reflexivity|contradiction].
Qed.
(** Where the n-th access of [k] is in the log. *)
Fixpoint position (k : task) (n : nat) (log : list (task * act)) : nat :=
  match log with
  | [] => 0
  | (j, _) :: r => if task_eq_dec k j
                   then match n with 0 => 0 | S n => S (position k n r) end
                   else S (position k n r)
  end.
Definition log1 : list (task * act) := log_of (drive three whole ([], m_init)).
Lemma two_schedules : exists s1 log2 s2, mexec three log1 s1 /\ mexec three log2 s2 /\
  (forall k, did k log1 = did k log2) /\ log1 <> log2 /\
  sees_write log1 (Part 1 F_dirty) (K_link 1) 3 (K_link 1) 2 /\
  sees_write log1 (IdPart 0 1 I_success) (K_store 0) 15 (K_id 0 1) 11.
Proof.
  destruct (drive three whole ([], m_init)) as [[l1 s1]|] eqn:E1; [|vm_compute in E1; discriminate E1].
  destruct (drive three whole2 ([], m_init)) as [[log2 s2]|] eqn:E2; [|vm_compute in E2; discriminate E2].
  assert (El1 : log1 = l1) by (unfold log1; rewrite E1; reflexivity).
  assert (El2 : log2 = log_of (drive three whole2 ([], m_init))) by (rewrite E2; reflexivity).
  exists s1, log2, s2.
  split; [rewrite El1; exact (drive_sound three whole [] m_init l1 s1 (m_nil three) E1)|].
  split; [exact (drive_sound three whole2 [] m_init log2 s2 (m_nil three) E2)|].
  clear E1 E2 El1. split; [|split; [|split]].
  - apply same_doings_sound. rewrite El2. vm_compute. reflexivity.
  - rewrite El2. vm_compute. discriminate.
  - set (w := position (K_link 1) 2 log1). set (q := position (K_link 1) 3 log1).
    exists (firstn w log1), (firstn (q - S w) (skipn (S w) log1)), (skipn (S q) log1).
    split; [vm_compute; reflexivity|]. split; [apply writes_in_none; vm_compute; reflexivity|].
    split; vm_compute; reflexivity.
  - set (w := position (K_id 0 1) 11 log1). set (q := position (K_store 0) 15 log1).
    exists (firstn w log1), (firstn (q - S w) (skipn (S w) log1)), (skipn (S q) log1).
    split; [vm_compute; reflexivity|]. split; [apply writes_in_none; vm_compute; reflexivity|].
    split; vm_compute; reflexivity.
Qed.
