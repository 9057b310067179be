(** Programs with several builders: what a finished run leaves behind. *)
From Verif Require Import Prelude Proof_Prelude Model_Path Model_Schema Model_Command Model_ToolchainConfig Model_Target
  Spec_Target Proof_TargetBase Proof_TargetInv Proof_TargetRun Proof_TargetStep Proof_TargetStep2 Proof_TargetMain
  Model_Reg Spec_Reg Proof_Reg Proof_RegRun Model_Project Spec_Project Proof_Project Proof_Project2.

Definition edited_in (evs : list pevent) : bool := fold_left edited_after evs false.

Lemma in_init l id e st : In (id, (e, st)) (map (fun x : string * (tenv * disk) => (fst x, (fst (snd x), init (snd (snd x))))) l) ->
  exists d, In (id, (e, d)) l /\ st = init d.
Proof. intros H. apply in_map_iff in H as ([i [e0 d]] & [= <- <- <-] & H). exists d. auto. Qed.

Lemma PInv_init rg mt0 l gens : fresh_project mt0 l ->
  PInv rg (pinit l gens) (fun id => match assoc id l with Some (_, d) => hist0 d | None => HS (fun _ => 0%N) None None false end) false.
Proof.
  intros (Nd & No & F). constructor; unfold pinit; cbn [p_targets p_built p_run p_ok map].
  - rewrite map_map. cbn [fst]. exact Nd.
  - intros id e st H. apply in_init in H as (d & H & ->). rewrite (assoc_NoDup_In _ _ _ Nd H).
    destruct (F _ _ _ H) as (T & _). constructor; try discriminate; try reflexivity.
    + exact T.
    + exists d, []. constructor.
  - constructor.
  - intros id [].
  - reflexivity.
  - discriminate.
Qed.

Lemma phistory_PInv rg mt0 l gens evs h p : fresh_project mt0 l -> phistory rg l gens evs h p -> PInv rg p h (edited_in evs).
Proof.
  intros F H. induction H as [|evs h p ev p' _ IH A S]; [exact (PInv_init _ _ _ _ F)|].
  unfold edited_in. rewrite fold_left_app. cbn [fold_left]. exact (PInv_step _ _ _ _ _ _ IH A S).
Qed.
Lemma undisturbed_edited pre w r run : Forall undisturbed_run run -> edited_in (pre ++ PRun w r :: run) = false.
Proof.
  intros F. unfold edited_in. rewrite fold_left_app. cbn [fold_left edited_after].
  generalize (fold_left edited_after pre false). intros _. induction F as [|ev run U _ IH]; [reflexivity|].
  cbn [fold_left]. destruct ev; try destruct U; exact IH.
Qed.

(** The registry does not change during the run. *)
Lemma pstep_run p ev p' : undisturbed_run ev -> pstep p ev = Some p' ->
  p_built p' = p_built p /\
  forall w r x, p_run p = Some (w, r, x) -> exists x', p_run p' = Some (w, r, x').
Proof.
  intros U S. unfold pstep in S. destruct (process p ev) as [[[b rn] ok]|] eqn:E; [|discriminate].
  destruct (deliver _ _ _); [|discriminate]. injection S as <-. cbn [p_built p_run].
  destruct ev; try destruct U; cbn [process] in E; destruct (p_run p) as [[[w r] x]|] eqn:Er; try discriminate.
  - destruct (xstep _ _ _ _ _); [|discriminate]. injection E as <- <- <-. split; [reflexivity|]. intros ? ? ? [= <- <- <-]. eauto.
  - destruct (assoc id (p_targets p)) as [[e st]|]; [|discriminate]. destruct (assoc id (p_built p)); [|discriminate].
    destruct (_ && _ && _); [|discriminate]. destruct (step _ _ _); [|discriminate]. injection E as <- <- <-.
    split; [reflexivity|]. intros ? ? ? [= <- <- <-]. eauto.
  - destruct (assoc id (p_gens p)); [|discriminate]. destruct (_ && _); [|discriminate]. injection E as <- <- <-.
    split; [reflexivity|]. intros ? ? ? [= <- <- <-]. eauto.
  - destruct (assoc id (p_targets p)); [discriminate|]. destruct (assoc id (p_gens p)); [|discriminate]. destruct (mem_str _ _); [|discriminate].
    injection E as <- <- <-. split; [reflexivity|]. intros ? ? ? [= <- <- <-]. eauto.
  - destruct (xstep _ _ _ _ _); [|discriminate].
    destruct (assoc id (p_targets p)) as [[e st]|]; [destruct (assoc id (p_built p)); [destruct (_ && _)|destruct ok0]|destruct (implb _ _)];
      try discriminate; injection E as <- <- <-; (split; [reflexivity|]; intros ? ? ? [= <- <- <-]; eauto).
Qed.
Lemma phistory_snoc_inv rg l gens evs ev h p :
  phistory rg l gens (evs ++ [ev]) h p ->
  exists h1 p1, phistory rg l gens evs h1 p1 /\ padmissible rg p1 h1 ev /\ pstep p1 ev = Some p /\ h = ptrack p1 h1 ev.
Proof.
  intros H. inversion H as [E|evs' h1 p1 ev' p' H1 A S E].
  - destruct evs; discriminate.
  - apply app_inj_tail in E as [-> ->]. exists h1, p1. auto.
Qed.
Lemma run_in_progress rg l gens pre w r run : forall h p, Forall undisturbed_run run ->
  phistory rg l gens (pre ++ PRun w r :: run) h p -> exists x, p_run p = Some (w, r, x).
Proof.
  induction run as [|ev run IH] using rev_ind; intros h p F H.
  - apply phistory_snoc_inv in H as (h1 & p1 & _ & _ & S & _). unfold pstep in S. cbn [process] in S.
    destruct (p_run p1); [discriminate|]. destruct (deliver _ _ _); [|discriminate]. injection S as <-. cbn [p_run]. eauto.
  - replace (pre ++ PRun w r :: run ++ [ev]) with ((pre ++ PRun w r :: run) ++ [ev]) in H by (rewrite <- app_assoc; reflexivity).
    apply phistory_snoc_inv in H as (h1 & p1 & H & _ & S & _). apply Forall_app in F as [F1 F2].
    destruct (IH h1 p1 F1 H) as (x & Hx). apply Forall_inv in F2. destruct (pstep_run _ _ _ F2 S) as [_ K]. exact (K _ _ _ Hx).
Qed.

(** ** Everything a successful run finished is current *)
Theorem finished_current rg mt0 l gens pre w r run h p x id e st c :
  fresh_project mt0 l -> phistory rg l gens (pre ++ PRun w r :: run) h p -> Forall undisturbed_run run ->
  p_run p = Some (w, r, x) -> p_ok p = true ->
  In (id, (e, st)) (p_targets p) -> In (id, c) (p_built p) -> In id (finishes (x_log x)) ->
  all_current e c (s_disk st).
Proof.
  intros F H U Hr Ok Hi Hb Hf. pose proof (phistory_PInv _ _ _ _ _ _ _ F H) as P. rewrite (undisturbed_edited _ _ _ _ U) in P.
  pose proof (pi_tgt _ _ _ _ P id e st Hi) as T. pose proof (assoc_NoDup_In _ _ _ (pi_nd _ _ _ _ P) Hb) as Ha.
  apply (ti_done _ _ _ _ _ _ _ _ _ T c w r x Ha Hr eq_refl).
  - exact (ti_late _ _ _ _ _ _ _ _ _ T c w r x Ha Hr Hf).
  - exact (ti_ok _ _ _ _ _ _ _ _ _ T c w r x Ha Hr Ok).
Qed.

(** ** Which output was linked *)

(** The file whose time the event changes. *)
Definition change (p : project) (ev : pevent) : option (string * option N) :=
  match ev with
  | PEdit f t | PWrite _ f t => Some (f, t)
  | PStep i _ (Some t) => match assoc i (p_targets p) with Some (e, _) => Some (out_file e, t) | None => None end
  | _ => None
  end.
Definition changed (ch : option (string * option N)) (mt : times) : times :=
  match ch with Some (f, t) => upd mt f t | None => mt end.
Definition bumped (ch : option (string * option N)) (nx : string -> N) : string -> N :=
  match ch with Some (f, Some v) => upd nx f (N.max (nx f) (v + 1)) | _ => nx end.

Lemma taskflow_next e h st ev : in_taskflow ev = true -> h_next (track e h st ev) = h_next h.
Proof. destruct ev; try discriminate; reflexivity. Qed.

Definition touches_tgt (ev : event) : bool := match ev with EvLinkExec _ | EvDelTgt => true | _ => false end.
Definition same_tgt (st st' : tstate) : Prop :=
  d_tgt (s_disk st') = d_tgt (s_disk st) /\ d_tgt_bad (s_disk st') = d_tgt_bad (s_disk st).
Lemma step_tgt e st ev st' : step e st ev = Some st' -> touches_tgt ev = false -> same_tgt st st'.
Proof.
  intros S N. destruct ev; try discriminate; cbn [step] in S; unfold same_tgt.
  all: try (injection S as <-; split; reflexivity).
  all: destruct (s_pc st) eqn:Pc; try discriminate; try (injection S as <-; split; reflexivity).
  - unfold start in S. destruct (negb _ || _); [discriminate|]. destruct (forallb _ _); injection S as <-; split; reflexivity.
  - injection S as <-; unfold pch_check; destruct (s_ok st); cbn [negb]; [destruct (pch_pre _ _) as [u b]; destruct b; cbn [negb]; [destruct (_ || _)|]|]; split; reflexivity.
  - unfold pch_exec in S; destruct (pch_command _ _); try discriminate; injection S as <-; destruct (run_res _ _); split; reflexivity.
  - injection S as <-; unfold obj_check; destruct (s_ok st); cbn [negb]; [destruct (obj_pre _ _) as [u b]; destruct b; cbn [negb]; [|]|]; try (split; reflexivity);
       match goal with |- context [let '(_, _) := ?t in _] => destruct t as [[sel dum] d'] end; split; reflexivity.
  - unfold compile_one in S; destruct (take_pending _ _) as [[i rest]|]; try discriminate; destruct (compile_command _ _ _); try discriminate; injection S as <-; destruct (run_res _ _); split; reflexivity.
  - destruct pending; try discriminate; injection S as <-; unfold link_check; destruct (s_ok st); cbn [negb]; [destruct (link_pre _ _) as [u b]; destruct b; cbn [negb]; [|]|]; try (split; reflexivity); destruct (match s_load st with Some _ => _ | None => _ end); split; reflexivity.
  - unfold end_task in S; destruct (s_dirty st); [destruct (store_text _)|]; destruct w; try discriminate; try (injection S as <-; split; reflexivity);
       destruct (short n _); try discriminate; destruct reported_ok; injection S as <-; split; reflexivity.
  - destruct (s_dirty st); [|discriminate]. destruct (bind _ _); [|discriminate]. injection S as <-. split; reflexivity.
Qed.
Lemma step_link e st r st' : step e st (EvLinkExec r) = Some st' ->
  if links e st (EvLinkExec r) then exists cmd, d_tgt (s_disk st') = Some (TA cmd (d_mt (s_disk st)) (d_obj (s_disk st)))
  else d_tgt_bad (s_disk st') = true.
Proof.
  cbn [step]. destruct (s_pc st); try discriminate. unfold link_exec, links, link_runs, run_res.
  destruct (link_command _ _ _) as [cmd| |]; try discriminate. intros [= <-].
  destruct r as [|lo|]; destruct (String.eqb cmd ""); cbn [negb]; try reflexivity. exists cmd. reflexivity.
Qed.
Lemma same_tgt_trans a b c : same_tgt a b -> same_tgt b c -> same_tgt a c.
Proof. intros [A B] [C D]. split; congruence. Qed.

Lemma fail_others_effect e st b st' h : exec e st (fail_others b st) = Some st' ->
  d_mt (s_disk st') = d_mt (s_disk st) /\ h_next (tracks e h st (fail_others b st)) = h_next h /\ same_tgt st st'.
Proof.
  unfold fail_others. destruct (b && running st); cbn [exec step tracks]; intros [= <-]; repeat split; reflexivity.
Qed.

Lemma delivered_effect p ev built run ok id e st st' h :
  NoDup (map fst (p_targets p)) -> process p ev = Some (built, run, ok) -> In (id, (e, st)) (p_targets p) ->
  exec e st (delivered p ev id st) = Some st' ->
  d_mt (s_disk st') = changed (change p ev) (d_mt (s_disk st)) /\
  h_next (tracks e h st (delivered p ev id st)) = bumped (change p ev) (h_next h) /\
  ((forall x t, ev = PStep id x t -> touches_tgt x = false) -> same_tgt st st').
Proof.
  intros Nd S Hi X. pose proof (assoc_NoDup_In _ _ _ Nd Hi) as Ha.
  destruct ev as [f t|i|i c ord|w r|i|i ev t|i f t|i|i okk|l]; cbn [process delivered change changed bumped] in *.
  - cbn [exec step tracks] in *. injection X as <-. split; [reflexivity|]. split; [destruct t; reflexivity|]. intros _. split; reflexivity.
  - destruct (String.eqb i id); cbn [exec step tracks] in *; injection X as <-; repeat split; reflexivity.
  - destruct (String.eqb i id); cbn [exec tracks] in *.
    + destruct (step e st (EvStart c ord)) as [s1|] eqn:St; [|discriminate]. injection X as <-.
      pose proof (step_tgt _ _ _ _ St eq_refl) as K. split; [|split; [reflexivity|intros _; exact K]].
      cbn [step] in St. destruct (s_pc st); try discriminate. unfold start in St. destruct (negb _ || _); [discriminate|].
      destruct (forallb _ _); injection St as <-; reflexivity.
    + injection X as <-. repeat split; reflexivity.
  - cbn [exec tracks] in *. injection X as <-. repeat split; reflexivity.
  - cbn [exec tracks] in *. injection X as <-. repeat split; reflexivity.
  - destruct (p_run p) as [[[w r] x]|] eqn:Er; [|discriminate].
    destruct (assoc i (p_targets p)) as [[ei sti]|] eqn:Ei; [|discriminate].
    destruct (assoc i (p_built p)) as [ci|] eqn:Eb; [|discriminate].
    destruct (mem_str i (x_running x) && in_taskflow ev && _) eqn:Co; [|discriminate].
    apply andb_true_iff in Co as [Co Ct]. apply andb_true_iff in Co as [Cr Cf].
    destruct (step ei sti ev) as [sti'|] eqn:Si; [|discriminate].
    destruct (String.eqb_spec i id) as [->|N].
    + rewrite Ha in Ei. injection Ei as <- <-. rewrite app_nil_r in *. cbn [app exec tracks] in *. rewrite Si in *.
      destruct (taskflow_step _ _ _ _ Cf Si) as (_ & _ & _ & Mt).
      assert (K : (forall x0 t0, PStep id ev t = PStep id x0 t0 -> touches_tgt x0 = false) -> same_tgt st sti').
      { intros K. exact (step_tgt _ _ _ _ Si (K ev t eq_refl)). }
      pose proof (taskflow_next e h st ev Cf) as Nx.
      destruct t as [t'|]; cbn [exec step tracks changed bumped] in *; injection X as <-.
      * split; [cbn [with_disk s_disk set_mt d_mt]; rewrite Mt; reflexivity|]. split; [|exact K].
        cbn [track h_next]. rewrite Nx. destruct t'; reflexivity.
      * split; [exact Mt|]. split; [exact Nx|exact K].
    + cbn [app] in *. destruct t as [t'|]; cbn [app exec step tracks changed bumped] in *.
      * match type of X with exec e ?s1 _ = _ => set (s1' := s1) in * end.
        replace (fail_others (negb (s_ok sti')) st) with (fail_others (negb (s_ok sti')) s1') in * by reflexivity.
        destruct (fail_others_effect _ _ _ _ (track e h st (EvEdit (out_file ei) t')) X) as (A1 & A2 & A3).
        split; [rewrite A1; reflexivity|]. split; [rewrite A2; cbn [track h_next]; destruct t'; reflexivity|]. intros _. exact A3.
      * destruct (fail_others_effect _ _ _ _ h X) as (A1 & A2 & A3). auto.
  - cbn [exec step tracks] in *. injection X as <-. split; [reflexivity|]. split; [destruct t; reflexivity|]. intros _. split; reflexivity.
  - destruct (fail_others_effect _ _ _ _ h X) as (A1 & A2 & A3). auto.
  - destruct (assoc i (p_targets p)); cbn [exec tracks] in *.
    + injection X as <-. repeat split; reflexivity.
    + destruct (fail_others_effect _ _ _ _ h X) as (A1 & A2 & A3). auto.
  - destruct (running st); [|cbn [exec tracks] in *; injection X as <-; repeat split; reflexivity].
    destruct (assoc id l) as [n|]; cbn [exec tracks] in *.
    + destruct (step e st (EvCrashEnd n)) as [s1|] eqn:St; [|discriminate]. injection X as <-.
      pose proof (step_tgt _ _ _ _ St eq_refl) as K. split; [|split; [reflexivity|intros _; exact K]].
      cbn [step] in St. destruct (s_pc st); try discriminate. destruct (s_dirty st); [|discriminate].
      destruct (bind _ _); [|discriminate]. injection St as <-. reflexivity.
    + destruct (step e st EvCrash) as [s1|] eqn:St; [|discriminate]. injection X as <-.
      pose proof (step_tgt _ _ _ _ St eq_refl) as K. split; [|split; [reflexivity|intros _; exact K]].
      cbn [step] in St. destruct (s_pc st); try discriminate; injection St as <-; reflexivity.
Qed.

(** [V]: which output of a target had which time.  Times of outputs only grow, so
    the time recorded by a link identifies the output it read. *)
Record GInv (p : project) (h : phist) : Prop := {
  gi_outs : forall a ea sa b eb sb, In (a, (ea, sa)) (p_targets p) -> In (b, (eb, sb)) (p_targets p) ->
    out_file ea = out_file eb -> a = b;
  gi_v : exists mt V,
    (forall id e st, In (id, (e, st)) (p_targets p) ->
       d_mt (s_disk st) = mt /\ V id None = None /\ V id (mt (out_file e)) = d_tgt (s_disk st)) /\
    (forall id e st k, In (id, (e, st)) (p_targets p) -> d_tgt (s_disk st) = Some k -> d_tgt_bad (s_disk st) = false ->
       forall b eb sb, In (b, (eb, sb)) (p_targets p) ->
         V b (l_snap k (out_file eb)) = p_seen p id b /\
         forall t i, l_snap k (out_file eb) = Some t -> In i (map fst (p_targets p)) -> (t < h_next (h i) (out_file eb))%N) }.

Lemma PInv_next rg p h ed id e st : PInv rg p h ed -> In (id, (e, st)) (p_targets p) -> nextok (h id) (d_mt (s_disk st)).
Proof.
  intros P Hi. pose proof (pi_tgt _ _ _ _ P id e st Hi) as T. destruct (ti_hist _ _ _ _ _ _ _ _ _ T) as (d0 & evs & H).
  exact (i_next _ _ _ _ (history_Inv rg e (ti_temp _ _ _ _ _ _ _ _ _ T) _ _ _ _ H)).
Qed.

Lemma bumped_mono ch nx f : (nx f <= bumped ch nx f)%N.
Proof.
  unfold bumped. destruct ch as [[g [v|]]|]; try apply N.le_refl. unfold upd. destruct (String.eqb_spec f g) as [->|]; lia.
Qed.

Lemma GInv_init mt0 l gens h : fresh_project mt0 l -> GInv (pinit l gens) h.
Proof.
  intros (Nd & No & F). constructor; unfold pinit; cbn [p_targets].
  - intros a ea sa b eb sb Ha Hb E. apply in_init in Ha as (da & Ha & _). apply in_init in Hb as (db & Hb & _).
    clear F gens h Nd. induction l as [|[i [e0 d0]] l IH]; [destruct Ha|]. cbn [map fst snd] in No. inversion No as [|? ? N1 N2]; subst.
    destruct Ha as [Ha|Ha], Hb as [Hb|Hb].
    + congruence.
    + exfalso. apply N1. injection Ha as -> -> ->. rewrite E. apply (in_map (fun x => out_file (fst (snd x))) _ _ Hb).
    + exfalso. apply N1. injection Hb as -> -> ->. rewrite <- E. apply (in_map (fun x => out_file (fst (snd x))) _ _ Ha).
    + exact (IH N2 Ha Hb).
  - exists mt0, (fun _ _ => None). split.
    + intros id e st H. apply in_init in H as (d & H & ->). destruct (F _ _ _ H) as (_ & A & _ & B). cbn. auto.
    + intros id e st k H K. apply in_init in H as (d & H & ->). destruct (F _ _ _ H) as (_ & _ & _ & B). cbn in K. congruence.
Qed.

Lemma links_link e st ev : links e st ev = true -> exists r, ev = EvLinkExec r.
Proof. destruct ev; try discriminate. eauto. Qed.
Lemma link_runs_link e st ev : link_runs e st ev = true -> exists r, ev = EvLinkExec r.
Proof. destruct ev; try discriminate. eauto. Qed.

Definition keep_seen (p : project) (ev : pevent) : string -> string -> option tgt_art :=
  match ev with
  | PStep i x _ => match assoc i (p_targets p) with
                   | Some (e, st) => if links e st x then upd (p_seen p) i (outputs p) else p_seen p
                   | None => p_seen p end
  | _ => p_seen p end.

Section Step.
Variables (rg : regime) (p p' : project) (h : phist) (ed : bool) (ev : pevent).
Variables (built : list (string * cfg)) (run : option (nat * reg * xstate)) (ok : bool) (ts : list (string * (tenv * tstate))).
Hypothesis P : PInv rg p h ed.
Hypothesis A : padmissible rg p h ev.
Hypothesis S : process p ev = Some (built, run, ok).
Hypothesis D : deliver p ev (p_targets p) = Some ts.

Lemma back id e st' : In (id, (e, st')) ts -> exists st, In (id, (e, st)) (p_targets p) /\
  d_mt (s_disk st') = changed (change p ev) (d_mt (s_disk st)) /\
  ((forall x t, ev = PStep id x t -> touches_tgt x = false) -> same_tgt st st') /\
  exec e st (delivered p ev id st) = Some st'.
Proof.
  intros Hi. destruct (deliver_In _ _ _ _ _ _ _ D Hi) as (st & H1 & H2). exists st.
  destruct (delivered_effect _ _ _ _ _ _ _ _ _ (h id) (pi_ids _ _ _ _ P) S H1 H2) as (B1 & _ & B3). auto.
Qed.
Lemma next_mono i f : In i (map fst (p_targets p)) -> (h_next (h i) f <= h_next (ptrack p h ev i) f)%N.
Proof.
  intros Hi. apply in_map_iff in Hi as ([j [e st]] & <- & Hi). cbn [fst].
  rewrite (ptrack_at p h ev j e st (pi_ids _ _ _ _ P) Hi). destruct (deliver_In' _ _ _ _ _ _ _ D Hi) as (st' & H1 & H2).
  destruct (delivered_effect _ _ _ _ _ _ _ _ _ (h j) (pi_ids _ _ _ _ P) S Hi H2) as (_ & B2 & _). rewrite B2. apply bumped_mono.
Qed.

(** No link: outputs and what was linked stay. *)
Lemma GInv_quiet : (forall i x t, ev = PStep i x t -> touches_tgt x = false) ->
  GInv p h -> GInv (PJ ts (p_gens p) built run ok (keep_seen p ev)) (ptrack p h ev).
Proof.
  intros NL [Go (mt & V & G1 & G2)].
  assert (Ks : keep_seen p ev = p_seen p).
  { unfold keep_seen. destruct ev as [| | | | |i x t| | | |]; try reflexivity. destruct (assoc i (p_targets p)) as [[e st]|]; [|reflexivity].
    destruct (links e st x) eqn:L; [|reflexivity]. apply links_link in L as (r & ->). discriminate (NL i _ t eq_refl). }
  assert (Ch : forall id e st, In (id, (e, st)) (p_targets p) -> changed (change p ev) mt (out_file e) = mt (out_file e)).
  { intros id e st Hi. unfold changed, change. destruct ev as [f t|i|i c ord|w r|i|i x t|i f t|i|i okk|l0]; try reflexivity.
    - cbn [padmissible] in A. unfold upd. destruct (String.eqb_spec (out_file e) f) as [E|]; [|reflexivity].
      exfalso. apply (proj1 A). exists id, e, st. auto.
    - destruct t as [t|]; [|reflexivity]. exfalso. cbn [process] in S. destruct (p_run p) as [[[w r] y]|]; [|discriminate].
      destruct (assoc i (p_targets p)) as [[ei sti]|]; [|discriminate]. destruct (assoc i (p_built p)); [|discriminate].
      destruct (link_runs ei sti x) eqn:L.
      + apply link_runs_link in L as (r0 & ->). discriminate (NL i _ _ eq_refl).
      + rewrite andb_false_r in S. discriminate.
    - cbn [padmissible] in A. unfold upd. destruct (String.eqb_spec (out_file e) f) as [E|]; [|reflexivity].
      exfalso. apply (proj1 A). exists id, e, st. auto. }
  constructor; cbn [p_targets p_seen].
  - intros a ea sa b eb sb Ha Hb. apply back in Ha as (sa' & Ha & _). apply back in Hb as (sb' & Hb & _). exact (Go _ _ _ _ _ _ Ha Hb).
  - exists (changed (change p ev) mt), V. split.
    + intros id e st Hi. apply back in Hi as (st0 & Hi & B1 & B2 & _). destruct (G1 _ _ _ Hi) as (C1 & C2 & C3).
      split; [congruence|]. split; [exact C2|]. rewrite (Ch id e st0 Hi), C3. symmetry. apply B2. intros x t E. exact (NL _ _ _ E).
    + intros id e st k Hi K Bd b eb sb Hb. apply back in Hi as (st0 & Hi & B1 & B2 & _). apply back in Hb as (sb0 & Hb & _).
      destruct (B2 (fun x t E => NL _ _ _ E)) as [T1 T2]. rewrite T1 in K. rewrite T2 in Bd.
      destruct (G2 _ _ _ _ Hi K Bd _ _ _ Hb) as [C1 C2]. rewrite Ks. split; [exact C1|].
      intros t i Ht Hin. rewrite (deliver_ids _ _ _ _ D) in Hin. eapply N.lt_le_trans; [exact (C2 t i Ht Hin)|apply next_mono; exact Hin].
Qed.

(** A link. *)
Lemma GInv_link i r t : ev = PStep i (EvLinkExec r) t ->
  GInv p h -> GInv (PJ ts (p_gens p) built run ok (keep_seen p ev)) (ptrack p h ev).
Proof.
  intros Ev [Go (mt & V & G1 & G2)]. pose proof back as Bk. pose proof next_mono as Nm. pose proof A as A'. pose proof S as S'.
  rewrite Ev in A', S'. cbn [padmissible] in A'. cbn [process] in S'.
  destruct (p_run p) as [[[w rr] y]|]; [|discriminate]. destruct (assoc i (p_targets p)) as [[ei sti]|] eqn:Ei; [|discriminate].
  destruct (assoc i (p_built p)); [|discriminate]. destruct (mem_str i (x_running y) && _ && _) eqn:Co; [|discriminate].
  apply andb_true_iff in Co as [Co Ct].
  destruct (step ei sti (EvLinkExec r)) as [sti'|] eqn:Si; [|discriminate]. clear S' Co.
  pose proof (assoc_In _ _ _ Ei) as Hi. destruct (A' _ _ _ Hi Si) as [_ At].
  assert (Ch : change p ev = match t with Some t' => Some (out_file ei, t') | None => None end).
  { rewrite Ev. cbn [change]. rewrite Ei. reflexivity. }
  assert (Ks : keep_seen p ev = if links ei sti (EvLinkExec r) then upd (p_seen p) i (outputs p) else p_seen p).
  { rewrite Ev. unfold keep_seen. rewrite Ei. reflexivity. }
  assert (Ot : forall b, b <> i -> forall x t0, ev = PStep b x t0 -> touches_tgt x = false).
  { intros b Nb x t0 E. rewrite Ev in E. injection E as <- <- <-. contradiction. }
  assert (Own : forall e st', In (i, (e, st')) ts -> e = ei /\ d_tgt (s_disk st') = d_tgt (s_disk sti') /\ d_tgt_bad (s_disk st') = d_tgt_bad (s_disk sti')).
  { intros e st' H. apply Bk in H as (st & H1 & _ & _ & H2). pose proof (assoc_NoDup_In _ _ _ (pi_ids _ _ _ _ P) H1) as H3.
    rewrite Ei in H3. injection H3 as <- <-. split; [reflexivity|]. rewrite Ev in H2. cbn [delivered] in H2.
    rewrite Ei, String.eqb_refl, app_nil_r in H2. cbn [app exec] in H2. rewrite Si in H2.
    destruct t; cbn [exec step] in H2; injection H2 as <-; split; reflexivity. }
  set (V' := fun b k => if String.eqb b i then
                match t, k with Some (Some v), Some u => if N.eqb u v then d_tgt (s_disk sti') else V b k | _, _ => V b k end
              else V b k).
  assert (Vo : forall b k, b <> i -> V' b k = V b k).
  { intros b k N. unfold V'. destruct (String.eqb_spec b i); [contradiction|reflexivity]. }
  assert (Vl : forall k, (forall v u, t = Some (Some v) -> k = Some u -> (u < v)%N) -> V' i k = V i k).
  { intros k L. unfold V'. rewrite String.eqb_refl. destruct t as [[v|]|]; [destruct k as [u|]|..]; try reflexivity.
    destruct (N.eqb_spec u v) as [->|]; [|reflexivity]. specialize (L v v eq_refl eq_refl). lia. }
  assert (Nx : forall k u j, mt k = Some u -> In j (map fst (p_targets p)) -> (u < h_next (h j) k)%N).
  { intros k u j E Hj. apply in_map_iff in Hj as ([j' [ej sj]] & <- & Hj). cbn [fst]. apply (PInv_next _ _ _ _ _ _ _ P Hj).
    rewrite (proj1 (G1 _ _ _ Hj)). exact E. }
  assert (Ii : In i (map fst (p_targets p))) by apply (in_map fst _ _ Hi).
  assert (Lt : forall u v, t = Some (Some v) -> (u < h_next (h i) (out_file ei))%N -> (u < v)%N).
  { intros u v -> Hu. pose proof (At v i eq_refl Ii). lia. }
  assert (Vk : forall b eb sb k, In (b, (eb, sb)) (p_targets p) -> (forall u, k = Some u -> (u < h_next (h i) (out_file eb))%N) -> V' b k = V b k).
  { intros b eb sb k Hb Hk. destruct (String.eqb_spec b i) as [->|N]; [|exact (Vo b k N)]. apply Vl. intros v u E1 E2.
    apply (Lt u v E1). pose proof (assoc_NoDup_In _ _ _ (pi_ids _ _ _ _ P) Hb) as H3. rewrite Ei in H3. injection H3 as -> ->. exact (Hk u E2). }
  constructor; cbn [p_targets p_seen].
  - intros a ea sa b eb sb Ha Hb. apply Bk in Ha as (sa' & Ha & _). apply Bk in Hb as (sb' & Hb & _). exact (Go _ _ _ _ _ _ Ha Hb).
  - exists (changed (change p ev) mt), V'. split.
    + intros id e st H0. pose proof (Bk _ _ _ H0) as (st0 & H1 & B1 & B2 & _). destruct (G1 _ _ _ H1) as (C1 & C2 & C3).
      split; [congruence|]. split; [rewrite (Vk id e st0); [exact C2|exact H1|discriminate]|].
      rewrite Ch. destruct (String.eqb_spec id i) as [->|N].
      * destruct (Own _ _ H0) as (-> & T1 & _). rewrite T1. destruct t as [[v|]|]; cbn [changed]; unfold upd.
        -- rewrite String.eqb_refl. unfold V'. rewrite String.eqb_refl, N.eqb_refl. reflexivity.
        -- rewrite String.eqb_refl. rewrite (Vk i ei st0); [|exact H1|discriminate]. rewrite C2. symmetry. exact At.
        -- rewrite (Vk i ei st0); [|exact H1|]. { rewrite C3. pose proof (assoc_NoDup_In _ _ _ (pi_ids _ _ _ _ P) H1) as H3.
             rewrite Ei in H3. injection H3 as ->. symmetry. exact (proj2 At). }
           intros u E. exact (Nx _ _ _ E Ii).
      * destruct (B2 (Ot id N)) as [T1 _]. rewrite T1, <- C3.
        assert (E : changed match t with Some t' => Some (out_file ei, t') | None => None end mt (out_file e) = mt (out_file e)).
        { destruct t as [t'|]; [|reflexivity]. cbn [changed]. unfold upd. destruct (String.eqb_spec (out_file e) (out_file ei)) as [E|]; [|reflexivity].
          exfalso. exact (N (Go _ _ _ _ _ _ H1 Hi E)). }
        rewrite E. exact (Vo _ _ N).
    + intros id e st k H0 K Bd b eb sb Hb. pose proof (Bk _ _ _ H0) as (st0 & H1 & B1 & B2 & _). apply Bk in Hb as (sb0 & Hb & _).
      rewrite Ks. destruct (String.eqb_spec id i) as [->|N].
      * destruct (Own _ _ H0) as (-> & T1 & T2). rewrite T1 in K. rewrite T2 in Bd. pose proof (step_link _ _ _ _ Si) as SL.
        destruct (links ei sti (EvLinkExec r)); [|congruence]. destruct SL as (cmd & SL). rewrite SL in K. injection K as <-. cbn [l_snap].
        rewrite (proj1 (G1 _ _ _ Hi)). split.
        -- rewrite (Vk b eb sb0 _ Hb); [|intros u E; exact (Nx _ _ _ E Ii)]. destruct (G1 _ _ _ Hb) as (_ & _ & C3). rewrite C3.
           unfold upd. rewrite String.eqb_refl. unfold outputs. rewrite (assoc_NoDup_In _ _ _ (pi_ids _ _ _ _ P) Hb). reflexivity.
        -- intros u j E Hj. rewrite (deliver_ids _ _ _ _ D) in Hj. eapply N.lt_le_trans; [exact (Nx _ _ _ E Hj)|apply Nm; exact Hj].
      * destruct (B2 (Ot id N)) as [T1 T2]. rewrite T1 in K. rewrite T2 in Bd. destruct (G2 _ _ _ _ H1 K Bd _ _ _ Hb) as [C1 C2].
        split.
        -- rewrite (Vk b eb sb0 _ Hb); [|intros u E; exact (C2 u i E Ii)]. rewrite C1.
           destruct (links ei sti (EvLinkExec r)); [|reflexivity]. unfold upd. destruct (String.eqb_spec id i); [contradiction|reflexivity].
        -- intros u j E Hj. rewrite (deliver_ids _ _ _ _ D) in Hj. eapply N.lt_le_trans; [exact (C2 u j E Hj)|apply Nm; exact Hj].
Qed.
End Step.

Lemma GInv_step rg p h ed ev p' : PInv rg p h ed -> padmissible rg p h ev -> pstep p ev = Some p' -> GInv p h -> GInv p' (ptrack p h ev).
Proof.
  intros P A S G. unfold pstep in S. destruct (process p ev) as [[[b rn] ok]|] eqn:E; [|discriminate].
  destruct (deliver p ev (p_targets p)) as [ts|] eqn:Ed; [|discriminate]. injection S as <-.
  change (GInv (PJ ts (p_gens p) b rn ok (keep_seen p ev)) (ptrack p h ev)).
  destruct ev as [f t|i|i c ord|w r|i|i x t|i f t|i|i okk|l]; try (apply (GInv_quiet rg) with (ed := ed); try assumption; discriminate).
  destruct (touches_tgt x) eqn:Tx.
  - destruct x; try discriminate.
    + exfalso. cbn [process] in E. destruct (p_run p) as [[[w r] y]|]; [|discriminate]. destruct (assoc i (p_targets p)) as [[e st]|]; [|discriminate].
      destruct (assoc i (p_built p)); [|discriminate]. rewrite andb_false_r in E. discriminate.
    + eapply (GInv_link rg); eauto.
  - apply (GInv_quiet rg) with (ed := ed); try assumption. intros i0 x0 t0 [= <- <- <-]. exact Tx.
Qed.
Lemma phistory_GInv rg mt0 l gens evs h p : fresh_project mt0 l -> phistory rg l gens evs h p -> GInv p h.
Proof.
  intros F H. induction H as [|evs h p ev p' H IH A S]; [exact (GInv_init _ _ _ _ F)|].
  exact (GInv_step _ _ _ _ _ _ (phistory_PInv _ _ _ _ _ _ _ F H) A S IH).
Qed.

(** What a finished target was linked with is what is there now. *)
Theorem finished_linked rg mt0 l gens pre w r run h p x id e st c b eb sb :
  fresh_project mt0 l -> phistory rg l gens (pre ++ PRun w r :: run) h p -> Forall undisturbed_run run ->
  p_run p = Some (w, r, x) -> p_ok p = true ->
  In (id, (e, st)) (p_targets p) -> In (id, c) (p_built p) -> In id (finishes (x_log x)) ->
  In (b, (eb, sb)) (p_targets p) -> In (out_file eb) (libs c ++ link_deps c) ->
  p_seen p id b = d_tgt (s_disk sb).
Proof.
  intros F H U Hr Ok Hi Hb Hf Hj Hl. destruct (finished_current _ _ _ _ _ _ _ _ _ _ _ _ _ _ _ F H U Hr Ok Hi Hb Hf) as (_ & _ & T).
  destruct (phistory_GInv _ _ _ _ _ _ _ F H) as [_ (mt & V & G1 & G2)].
  destruct T as (k & ord & T1 & T2 & _ & _ & T3 & _). destruct (G2 _ _ _ _ Hi T1 T2 _ _ _ Hj) as [E _]. rewrite <- E.
  rewrite (T3 _ Hl), (proj1 (G1 _ _ _ Hi)). apply G1. exact Hj.
Qed.
