(** Programs with several builders: the invariant. *)
From Verif Require Import Prelude Proof_Prelude Model_Path Model_Schema Model_Command Model_ToolchainConfig Model_Target
  Spec_Target Proof_TargetBase Proof_TargetInv Proof_TargetRun Proof_TargetMain Model_Reg Spec_Reg Proof_Reg Proof_RegRun
  Model_Project Spec_Project.

(** ** Delivery *)

Lemma deliver_ids p ev l : forall l', deliver p ev l = Some l' -> map fst l' = map fst l.
Proof.
  induction l as [|[id [e st]] l IH]; intros l' H; cbn [deliver] in H; [injection H as <-; reflexivity|].
  destruct (exec e st _); [|discriminate]. destruct (deliver p ev l); [|discriminate]. injection H as <-. cbn [map fst].
  rewrite (IH _ eq_refl). reflexivity.
Qed.
Lemma deliver_outs p ev l : forall l', deliver p ev l = Some l' ->
  map (fun x => (fst x, fst (snd x))) l' = map (fun x => (fst x, fst (snd x))) l.
Proof.
  induction l as [|[id [e st]] l IH]; intros l' H; cbn [deliver] in H; [injection H as <-; reflexivity|].
  destruct (exec e st _); [|discriminate]. destruct (deliver p ev l); [|discriminate]. injection H as <-. cbn [map fst snd].
  rewrite (IH _ eq_refl). reflexivity.
Qed.
Lemma deliver_In p ev l : forall l' id e st', deliver p ev l = Some l' -> In (id, (e, st')) l' ->
  exists st, In (id, (e, st)) l /\ exec e st (delivered p ev id st) = Some st'.
Proof.
  induction l as [|[i [e0 st0]] l IH]; intros l' id e st' H Hi; cbn [deliver] in H; [injection H as <-; destruct Hi|].
  destruct (exec e0 st0 _) as [s1|] eqn:E; [|discriminate]. destruct (deliver p ev l) as [r|]; [|discriminate].
  injection H as <-. destruct Hi as [Hi|Hi].
  - injection Hi as <- <- <-. exists st0. split; [left; reflexivity|exact E].
  - destruct (IH r id e st' eq_refl Hi) as (st & A & B). exists st. split; [right; exact A|exact B].
Qed.
Lemma deliver_In' p ev l : forall l' id e st, deliver p ev l = Some l' -> In (id, (e, st)) l ->
  exists st', In (id, (e, st')) l' /\ exec e st (delivered p ev id st) = Some st'.
Proof.
  induction l as [|[i [e0 st0]] l IH]; intros l' id e st H Hi; cbn [deliver] in H; [destruct Hi|].
  destruct (exec e0 st0 _) as [s1|] eqn:E; [|discriminate]. destruct (deliver p ev l) as [r|]; [|discriminate].
  injection H as <-. destruct Hi as [Hi|Hi].
  - injection Hi as <- <- <-. exists s1. split; [left; reflexivity|exact E].
  - destruct (IH r id e st eq_refl Hi) as (st' & A & B). exists st'. split; [right; exact A|exact B].
Qed.

(** ** Several events of one target *)

Fixpoint admissibles (rg : regime) (e : tenv) (h : hist) (st : tstate) (evs : list event) : Prop :=
  match evs with
  | [] => True
  | ev :: r => admissible rg e h st ev /\
      match step e st ev with Some st' => admissibles rg e (track e h st ev) st' r | None => True end
  end.
Lemma history_exec rg e d0 more : forall evs h st st',
  history rg e d0 evs h st -> admissibles rg e h st more -> exec e st more = Some st' ->
  history rg e d0 (evs ++ more) (tracks e h st more) st'.
Proof.
  induction more as [|ev more IH]; intros evs h st st' H A X; cbn [exec tracks admissibles] in *.
  - injection X as <-. rewrite app_nil_r. exact H.
  - destruct (step e st ev) as [s1|] eqn:S; [|discriminate]. destruct A as [A1 A2].
    replace (evs ++ ev :: more) with ((evs ++ [ev]) ++ more) by (rewrite <- app_assoc; reflexivity).
    apply IH; [|exact A2|exact X]. apply history_snoc; assumption.
Qed.

(** ** The executor *)

Lemma NoDup_app_disjoint {A} (l f : list A) i : NoDup (l ++ f) -> In i l -> ~ In i f.
Proof.
  induction l as [|y l IH]; [intros _ []|]. cbn [app]. intros D H K. inversion D as [|? ? D1 D2]; subst.
  destruct H as [->|H]; [|exact (IH D2 H K)]. apply D1. apply in_app_iff. right. exact K.
Qed.
Lemma running_not_finished w b g x i : XInv w b g x -> In i (x_running x) -> ~ In i (finishes (x_log x)).
Proof. intros [C R N B O] H. exact (NoDup_app_disjoint _ _ i (Permutation_NoDup R N) H). Qed.
Lemma running_started w b g x i : XInv w b g x -> In i (x_running x) -> In i (starts (x_log x)).
Proof. intros [C R N B O] H. apply (Permutation_in _ (Permutation_sym R)). apply in_app_iff. left. exact H. Qed.
Lemma finished_started w b g x i : XInv w b g x -> In i (finishes (x_log x)) -> In i (starts (x_log x)).
Proof. intros [C R N B O] H. apply (Permutation_in _ (Permutation_sym R)). apply in_app_iff. right. exact H. Qed.
Lemma started_deps w b g x t d : XInv w b g x -> In t (starts (x_log x)) -> before g d t -> In d (finishes (x_log x)).
Proof.
  intros I Ht B. induction B as [d t E|d m t E _ IH].
  - destruct I as [C R N Bu O]. unfold starts in Ht. apply in_flat_map in Ht as (ev & H1 & H2).
    destruct ev as [i|]; [|destruct H2]. destruct H2 as [->|[]]. apply in_split in H1 as (l1 & l2 & H1).
    pose proof (O l1 t l2 H1 d E) as K. rewrite H1. rewrite finishes_app. apply in_app_iff. left. exact K.
  - pose proof (finished_started _ _ _ _ _ I (IH Ht)) as Hm. destruct I as [C R N Bu O].
    unfold starts in Hm. apply in_flat_map in Hm as (ev & H1 & H2).
    destruct ev as [i|]; [|destruct H2]. destruct H2 as [->|[]]. apply in_split in H1 as (l1 & l2 & H1).
    pose proof (O l1 m l2 H1 d E) as K. rewrite H1. rewrite finishes_app. apply in_app_iff. left. exact K.
Qed.

(** ** The invariant of one target in the program *)

(** Has the user changed a file since Reg::Run was called? *)
Definition edited_after (b : bool) (ev : pevent) : bool :=
  match ev with PRun _ _ | PStop _ => false | PEdit _ _ => true | _ => b end.

Section Target.
Context (rg : regime).

Record TInv (built : list (string * cfg)) (run : option (nat * reg * xstate)) (ok ed : bool)
    (id : string) (e : tenv) (st : tstate) (h : hist) : Prop := {
  ti_temp : templates_ok e;
  ti_hist : exists d0 evs, history rg e d0 evs h st;
  ti_unbuilt : assoc id built = None -> s_pc st = Idle;
  ti_cfg : forall c, assoc id built = Some c -> s_cfg st = c;
  ti_reg : forall c, assoc id built = Some c -> run = None -> before_checks st /\ s_ok st = true /\ h_edited h = false;
  ti_early : forall c w r x, assoc id built = Some c -> run = Some (w, r, x) -> ~ In id (starts (x_log x)) -> before_checks st;
  ti_late : forall c w r x, assoc id built = Some c -> run = Some (w, r, x) -> In id (finishes (x_log x)) -> s_pc st = Idle;
  ti_ok : forall c w r x, assoc id built = Some c -> run = Some (w, r, x) -> ok = true -> s_ok st = true;
  ti_edited : forall c w r x, assoc id built = Some c -> run = Some (w, r, x) -> ed = false -> h_edited h = false;
  ti_done : forall c w r x, assoc id built = Some c -> run = Some (w, r, x) -> ed = false -> s_pc st = Idle -> s_ok st = true ->
     all_current e c (s_disk st) }.

Lemma before_not_idle st : before_checks st -> s_pc st <> Idle.
Proof. intros [H|[H _]]; congruence. Qed.

(** A write that comes early enough or does not matter. *)
Definition harmless (built : list (string * cfg)) (id : string) (st : tstate) (f : string) : Prop :=
  assoc id built = None \/ before_checks st \/ ~ In f (tracked (s_cfg st)).

Lemma all_current_upd e c d f t : ~ In f (tracked c) -> all_current e c d -> all_current e c (set_mt d (upd (d_mt d) f t)).
Proof.
  intros N (A & B & C).
  assert (K : forall g, In g (tracked c) -> upd (d_mt d) f t g = d_mt d g).
  { intros g Hg. unfold upd. destruct (String.eqb_spec g f) as [->|]; [contradiction|reflexivity]. }
  unfold tracked in K. setoid_rewrite in_app_iff in K. setoid_rewrite in_app_iff in K. setoid_rewrite in_app_iff in K.
  setoid_rewrite in_app_iff in K. setoid_rewrite in_app_iff in K.
  unfold all_current. cbn [d_mt set_mt]. split; [|split].
  - intros P. destruct (A P) as (q & A1 & A2 & A3 & A4 & A5). exists q. repeat split; try assumption.
    intros g Hg. rewrite K; [exact (A5 g Hg)|]. apply in_app_iff in Hg. tauto.
  - intros s Hs. destruct (B s Hs) as (a & A1 & A2 & A3 & A4 & A5). exists a. repeat split; try assumption.
    intros g Hg. rewrite K; [exact (A4 g Hg)|]. destruct Hg as [->|Hg]; [tauto|]. apply in_app_iff in Hg. tauto.
  - destruct C as (l & o & A1 & A2 & A3 & A4 & A5 & A6). exists l, o. repeat split; try assumption.
    intros g Hg. rewrite K; [exact (A5 g Hg)|]. apply in_app_iff in Hg. tauto.
Qed.

Lemma harmless_admissible built run ok ed id e st h f t :
  TInv built run ok ed id e st h -> harmless built id st f ->
  (rg = Forward -> forall v, t = Some v -> (h_next h f <= v)%N) ->
  admissible rg e h st (EvEdit f t).
Proof.
  intros I H L. cbn [admissible]. destruct rg eqn:Erg.
  - destruct H as [H|[H|H]]; [left; exact (ti_unbuilt _ _ _ _ _ _ _ _ I H)|right; left; exact H|right; right; exact H].
  - split; [exact (L eq_refl)|]. intros [[W1 W2] W3]. destruct H as [H|[H|H]].
    + pose proof (ti_unbuilt _ _ _ _ _ _ _ _ I H) as K. rewrite K in W2. destruct W2; discriminate.
    + destruct H as [H|[H1 H2]]; [rewrite H in W2; destruct W2; discriminate|congruence].
    + apply H. unfold tracked. rewrite !in_app_iff. tauto.
Qed.

Lemma harmless_edit built run ok ed id e st h f t :
  TInv built run ok ed id e st h -> harmless built id st f ->
  (rg = Forward -> forall v, t = Some v -> (h_next h f <= v)%N) ->
  TInv built run ok ed id e (with_disk st (set_mt (s_disk st) (upd (d_mt (s_disk st)) f t))) (track e h st (EvEdit f t)).
Proof.
  intros I H L. pose proof (harmless_admissible _ _ _ _ _ _ _ _ _ _ I H L) as A.
  assert (Ed : forall c, assoc id built = Some c -> h_edited (track e h st (EvEdit f t)) = h_edited h).
  { intros c Hc. cbn [track h_edited]. destruct H as [H|[H|H]]; [congruence| |].
    - destruct H as [->|[-> ->]]; [reflexivity|]. cbn [andb]. apply orb_false_r.
    - apply mem_str_false in H. rewrite H, andb_false_r, orb_false_r. destruct (s_pc st); reflexivity. }
  destruct I as [I0 I1 I2 I3 I4 I5 I6 I7 I8 I9]. constructor; cbn [s_pc s_cfg s_ok with_disk s_disk]; try assumption.
  - destruct I1 as (d0 & evs & I1). exists d0, (evs ++ [EvEdit f t]). apply (history_snoc _ _ _ _ _ _ _ _ I1 A). reflexivity.
  - intros c Hc Hr. rewrite (Ed c Hc). exact (I4 c Hc Hr).
  - intros c w r x Hc Hr. rewrite (Ed c Hc). exact (I8 c w r x Hc Hr).
  - intros c w r x Hc Hr E P O. apply all_current_upd; [|exact (I9 c w r x Hc Hr E P O)].
    destruct H as [H|[H|H]]; [congruence|apply before_not_idle in H; contradiction|]. rewrite <- (I3 c Hc). exact H.
Qed.

(** The user changes a file. *)
Lemma user_edit built run ok ed id e st h f t :
  TInv built run ok ed id e st h -> admissible rg e h st (EvEdit f t) ->
  TInv built run ok true id e (with_disk st (set_mt (s_disk st) (upd (d_mt (s_disk st)) f t))) (track e h st (EvEdit f t)).
Proof.
  intros I A. destruct I as [I0 I1 I2 I3 I4 I5 I6 I7 I8 I9]. constructor; cbn [s_pc s_cfg s_ok with_disk s_disk]; try assumption; try discriminate.
  - destruct I1 as (d0 & evs & I1). exists d0, (evs ++ [EvEdit f t]). apply (history_snoc _ _ _ _ _ _ _ _ I1 A). reflexivity.
  - intros c Hc Hr. destruct (I4 c Hc Hr) as (B & O & E). split; [exact B|]. split; [exact O|].
    cbn [track h_edited]. rewrite E. destruct B as [->|[-> ->]]; reflexivity.
Qed.

(** Another builder failed. *)
Lemma other_failed built run ok ed id e st h :
  TInv built run ok ed id e st h -> run <> None ->
  TInv built run false ed id e (with_ok st false) h.
Proof.
  intros I Hr. destruct I as [I0 I1 I2 I3 I4 I5 I6 I7 I8 I9]. constructor; cbn [s_pc s_cfg s_ok with_ok s_disk]; try assumption; try discriminate.
  - destruct I1 as (d0 & evs & I1). exists d0, (evs ++ [EvFail]).
    apply (history_snoc _ _ _ _ _ _ EvFail _ I1 Logic.I). reflexivity.
  - intros c Hc K. contradiction.
Qed.
Lemma weaken_ok built run ok ed id e st h : run <> None ->
  TInv built run ok ed id e st h -> TInv built run false ed id e st h.
Proof. intros Hr []. constructor; try assumption. discriminate. Qed.

Lemma fail_others_TInv built run ok ed id e st h failed st' :
  TInv built run ok ed id e st h -> run <> None -> exec e st (fail_others failed st) = Some st' ->
  TInv built run (ok && negb failed) ed id e st' (tracks e h st (fail_others failed st)).
Proof.
  intros I Hr X. unfold fail_others in *. destruct failed; cbn [andb negb] in *.
  - rewrite andb_false_r. destruct (running st) eqn:Ru; cbn [exec step tracks] in *; injection X as <-.
    + exact (other_failed _ _ _ _ _ _ _ _ I Hr).
    + exact (weaken_ok _ _ _ _ _ _ _ _ Hr I).
  - rewrite andb_true_r. cbn [exec tracks] in *. injection X as <-. exact I.
Qed.

Lemma taskflow_step e st ev st' : in_taskflow ev = true -> step e st ev = Some st' ->
  s_cfg st' = s_cfg st /\ (s_pc st' = Idle -> exists w, ev = EvEnd w) /\ s_pc st <> Idle /\ d_mt (s_disk st') = d_mt (s_disk st).
Proof.
  intros F S. destruct ev; try discriminate; cbn [step] in S; destruct (s_pc st) eqn:Pc; try discriminate;
    (split; [|split; [|split; [congruence|]]]).
  all: try (intros _; eexists; reflexivity).
  1-3: injection S as <-; unfold pch_check; destruct (s_ok st); cbn [negb]; [destruct (pch_pre _ _) as [u b]; destruct b; cbn [negb]; [destruct (_ || _)|]|]; cbn; congruence.
  1-3: unfold pch_exec in S; destruct (pch_command _ _); try discriminate; injection S as <-; destruct (run_res _ _); cbn; congruence.
  1-3: injection S as <-; unfold obj_check; destruct (s_ok st); cbn [negb]; [destruct (obj_pre _ _) as [u b]; destruct b; cbn [negb]; [|]|]; cbn; try congruence;
       match goal with |- context [let '(_, _) := ?t in _] => destruct t as [[sel dum] d'] end; cbn; congruence.
  1-3: unfold compile_one in S; destruct (take_pending _ _) as [[i rest]|]; try discriminate; destruct (compile_command _ _ _); try discriminate; injection S as <-; destruct (run_res _ _); cbn; congruence.
  1-3: destruct pending; try discriminate; injection S as <-; unfold link_check; destruct (s_ok st); cbn [negb]; [destruct (link_pre _ _) as [u b]; destruct b; cbn [negb]; [|]|]; cbn; try congruence; destruct (match s_load st with Some _ => _ | None => _ end); cbn; congruence.
  1-3: unfold link_exec in S; destruct (link_command _ _ _); try discriminate; injection S as <-; destruct (run_res _ _); cbn; congruence.
  1,2: unfold end_task in S; destruct (s_dirty st); [destruct (store_text _)|]; destruct w; try discriminate; try (injection S as <-; reflexivity);
       destruct (short n _); try discriminate; destruct reported_ok; injection S as <-; reflexivity.
Qed.
Lemma taskflow_edited e h st ev : in_taskflow ev = true -> h_edited (track e h st ev) = h_edited h.
Proof. destruct ev; try discriminate; reflexivity. Qed.

Lemma own_step built w r x ok ed id e st h c ev st' :
  TInv built (Some (w, r, x)) ok ed id e st h -> assoc id built = Some c ->
  XInv w (rg_built r) (rg_edges r) x -> In id (x_running x) ->
  in_taskflow ev = true -> admissible rg e h st ev -> step e st ev = Some st' ->
  TInv built (Some (w, r, x)) (ok && s_ok st') ed id e st' (track e h st ev).
Proof.
  intros I Hc X Ru F A S. destruct (taskflow_step _ _ _ _ F S) as (Sc & Si & Sn & _).
  assert (Hh : exists d0 evs, history rg e d0 evs h st) by (destruct I; assumption).
  pose proof (running_started _ _ _ _ _ X Ru) as Rs. pose proof (running_not_finished _ _ _ _ _ X Ru) as Rf.
  destruct I as [I0 I1 I2 I3 I4 I5 I6 I7 I8 I9]. constructor; try assumption.
  - destruct Hh as (d0 & evs & Hh). exists d0, (evs ++ [ev]). exact (history_snoc _ _ _ _ _ _ _ _ Hh A S).
  - congruence.
  - rewrite Sc. exact I3.
  - discriminate.
  - intros c' w' r' x' _ [= <- <- <-] K. contradiction.
  - intros c' w' r' x' _ [= <- <- <-] K. contradiction.
  - intros c' w' r' x' _ _ K. apply andb_true_iff in K as [_ K]. exact K.
  - rewrite (taskflow_edited _ _ _ _ F). exact I8.
  - intros c' w' r' x' Hc' Hr E P O. destruct (Si P) as (wr & ->). rewrite <- (I3 c' Hc'), <- Sc.
    destruct Hh as (d0 & evs & Hh).
    apply (success_current rg e d0 evs wr (track e h st (EvEnd wr)) st' I0); [|exact O|].
    + exact (history_snoc _ _ _ _ _ _ _ _ Hh A S).
    + rewrite (taskflow_edited _ _ _ _ F). exact (I8 c' w' r' x' Hc' Hr E).
Qed.
End Target.
