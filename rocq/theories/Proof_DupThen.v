(** Build() called several times, and again several times in the next process. *)
From Verif Require Import Prelude Proof_Prelude Model_Path Model_Json Model_Schema Proof_Schema Model_Command Spec_Command
  Model_ToolchainConfig Model_Target Spec_Target Proof_TargetBase Proof_TargetInv Proof_TargetRun
  Proof_TargetStep Proof_TargetStep2 Proof_TargetMain Spec_Two Proof_Two Model_Two Proof_TwoMain Model_Dup Spec_Dup Proof_Dup Proof_Dup2
  Proof_TargetCase Proof_TwoCase Proof_DupCase.

Lemma Hashed_times (m m' : times) l i : Hashed m l i -> Hashed m' l i -> forall f, In f l -> m f = m' f.
Proof.
  intros A. induction A as [|p x l i [X1 X2] _ IH]; intros B f F; [destruct F|].
  inversion B as [|? ? ? ? [Y1 Y2] B']; subst. destruct F as [F|F]; [|exact (IH B' f F)].
  subst f. exact (hashed_time _ _ _ _ X2 Y2).
Qed.

(** The history of which only the configuration is known. *)
Definition only (c : cfg) : hist := HS (fun _ => 0%N) (Some c) None false.
Lemma only_permitted e c : NoDup (map (obj_of e) (sources c)) -> permitted e (only c) c.
Proof. intros H. split; [exact H|]. split; [intros K; destruct (K eq_refl)|]. split; [discriminate|]. intros c1 [= <-]. reflexivity. Qed.

Lemma current_safe e c d t : all_current e c d -> allclean t c (d_mt d) -> SafeS Quiet e (only c) d t.
Proof.
  intros (P & O & L) (Cp & Co & (Cs & _) & Cl) c' (_ & _ & _ & T). specialize (T c eq_refl). subst c'.
  split; [|split].
  - intros m _ Q K. destruct (P Q) as (p & A1 & A2 & A3 & A4 & A5). exists p. repeat (split; [assumption|]).
    intros f F. rewrite (A5 f F). specialize (Cp Q). apply in_app_or in F as [F|F].
    + exact (Hashed_times _ _ _ _ (pc_hdr _ _ _ Cp) (pc_hdr _ _ _ K) f F).
    + exact (Hashed_times _ _ _ _ (pc_pchs _ _ _ Cp) (pc_pchs _ _ _ K) f F).
  - intros m1 m2 _ _ _ K p Hp (hh & M1 & M2). destruct (O p Hp) as (a & A1 & A2 & A3 & A4 & A5). exists a.
    repeat (split; [assumption|]). split; [|exact A5]. intros f F. rewrite (A4 f F). destruct F as [<-|F].
    + destruct (Cs p Hp) as (h2 & N1 & N2). rewrite M1 in N1. injection N1 as <-. exact (hashed_time _ _ _ _ N2 M2).
    + apply in_app_or in F as [F|F].
      * exact (Hashed_times _ _ _ _ (oc_hdr _ _ _ Co) (oc_hdr _ _ _ K) f F).
      * exact (Hashed_times _ _ _ _ (oc_dep _ _ _ Co) (oc_dep _ _ _ K) f F).
  - intros m1 m2 m3 _ _ _ _ _ _ K. destruct L as (b & o & A1 & A2 & A3 & A4 & A5 & A6). exists b, o.
    repeat (split; [assumption|]). split; [|exact A6]. intros f F. rewrite (A5 f F). apply in_app_or in F as [F|F].
    + exact (Hashed_times _ _ _ _ (lc_libs _ _ _ Cl) (lc_libs _ _ _ K) f F).
    + exact (Hashed_times _ _ _ _ (lc_dep _ _ _ Cl) (lc_dep _ _ _ K) f F).
Qed.

Theorem several_then_idle rg e d0 evs h st c n ord l s n2 ord2 l2 s2 :
  templates_ok e -> history rg e d0 evs h st -> s_pc st = Idle -> permitted e h c ->
  (forall f, In f (tracked c) -> d_mt (s_disk st) f <> None) ->
  n <> 0 -> ~ In (FOk "") (all_commands e c ord) -> Forall smooth l ->
  du_exec e (du_begin st) (DuStart n c ord :: l) = Some s -> all_ended s -> s_ok (du_st s) = true ->
  n2 <> 0 -> ~ In (FOk "") (all_commands e c ord2) -> Forall smooth l2 ->
  du_exec e (du_begin (with_pc (du_st s) Idle)) (DuStart n2 c ord2 :: l2) = Some s2 -> all_ended s2 -> s_ok (du_st s2) = true ->
  s_disk (du_st s2) = s_disk (du_st s) /\ s_log (du_st s2) = s_log (du_st s).
Proof.
  intros T H P Pm Ex N Hn F X A O N2 Hn2 F2 X2 A2 O2. cbn [du_exec] in X, X2.
  destruct (du_step e (du_begin st) (DuStart n c ord)) as [s1|] eqn:E; [|discriminate X].
  pose proof (idle_safe rg e d0 evs h st T H P) as Sf.
  assert (I : NInv e (s_disk st) c (s_log st) n s).
  { apply (du_tasks rg e h (s_disk st) c (s_log st) n Pm Ex Sf l s1 s F); [|exact X|exact O].
    intros O1. destruct (du_started rg e h (s_disk st) c (s_log st) n Pm Ex Sf st ord s1 eq_refl eq_refl Hn N E P) as [[_ K]|K]; [exact K|congruence]. }
  destruct (du_final rg e h (s_disk st) c (s_log st) n Pm Ex Sf s I N A) as ((B1 & t & B2 & B3) & _).
  rewrite <- (n_mt _ _ _ _ _ _ I) in B3, Ex.
  remember (with_pc (du_st s) Idle) as st2 eqn:E2.
  assert (D2 : s_disk st2 = s_disk (du_st s)) by (subst st2; reflexivity).
  assert (L2 : s_log st2 = s_log (du_st s)) by (subst st2; reflexivity).
  assert (P2 : s_pc st2 = Idle) by (subst st2; reflexivity).
  destruct (du_step e (du_begin st2) (DuStart n2 c ord2)) as [s3|] eqn:E3; [|discriminate X2].
  pose proof (only_permitted e c (proj1 Pm)) as Pm2.
  assert (Sf2 : forall u, stored (s_disk (du_st s)) = Some u -> SafeS Quiet e (only c) (s_disk (du_st s)) u).
  { intros u Hu. rewrite B2 in Hu. injection Hu as <-. exact (current_safe e c _ t B1 B3). }
  assert (I2 : NInv e (s_disk (du_st s)) c (s_log (du_st s)) n2 s2).
  { apply (du_tasks Quiet e (only c) _ c _ n2 Pm2 Ex Sf2 l2 s3 s2 F2); [|exact X2|exact O2].
    intros O1. destruct (du_started Quiet e (only c) _ c _ n2 Pm2 Ex Sf2 st2 ord2 s3 D2 L2 Hn2 N2 E3 P2) as [[_ K]|K]; [exact K|congruence]. }
  apply (du_final Quiet e (only c) _ c _ n2 Pm2 Ex Sf2 s2 I2 N2 A2). exists t. auto.
Qed.

(** One process, from a state of which the stored record is safe. *)
Lemma one_process rg e h st c n ord l s :
  permitted e h c -> (forall f, In f (tracked c) -> d_mt (s_disk st) f <> None) ->
  (forall u, stored (s_disk st) = Some u -> SafeS rg e h (s_disk st) u) ->
  s_pc st = Idle -> n <> 0 -> ~ In (FOk "") (all_commands e c ord) -> Forall smooth l ->
  du_exec e (du_begin st) (DuStart n c ord :: l) = Some s -> all_ended s -> s_ok (du_st s) = true ->
  d_mt (s_disk (du_st s)) = d_mt (s_disk st) /\ all_current e c (s_disk (du_st s)) /\
  exists t, stored (s_disk (du_st s)) = Some t /\ allclean t c (d_mt (s_disk (du_st s))).
Proof.
  intros Pm Ex Sf P N Hn F X A O. cbn [du_exec] in X.
  destruct (du_step e (du_begin st) (DuStart n c ord)) as [s1|] eqn:E; [|discriminate X].
  assert (I : NInv e (s_disk st) c (s_log st) n s).
  { apply (du_tasks rg e h (s_disk st) c (s_log st) n Pm Ex Sf l s1 s F); [|exact X|exact O].
    intros O1. destruct (du_started rg e h (s_disk st) c (s_log st) n Pm Ex Sf st ord s1 eq_refl eq_refl Hn N E P) as [[_ K]|K]; [exact K|congruence]. }
  destruct (du_final rg e h (s_disk st) c (s_log st) n Pm Ex Sf s I N A) as ((B1 & B2) & _).
  split; [exact (n_mt _ _ _ _ _ _ I)|]. split; [exact B1|]. rewrite (n_mt _ _ _ _ _ _ I). exact B2.
Qed.

Lemma edits_keep e edits : forall st st', Forall new_time edits -> exec e st edits = Some st' ->
  s_pc st' = s_pc st /\ same_art (s_disk st) (s_disk st') /\ d_store (s_disk st') = d_store (s_disk st) /\
  forall f, d_mt (s_disk st) f <> None -> d_mt (s_disk st') f <> None.
Proof.
  induction edits as [|x edits IH]; intros st st' F X; cbn [exec] in X.
  - injection X as <-. split; [reflexivity|]. split; [apply same_art_refl|]. split; [reflexivity|auto].
  - inversion F as [|? ? F1 F2]; subst. destruct x as [f t| | | |o| | |c' ord| |r| |q r| |r|w|m]; try (exfalso; exact F1).
    destruct t as [t|]; [|destruct F1]. cbn [step] in X.
    destruct (IH _ _ F2 X) as (A & B & C & D). split; [rewrite A; reflexivity|]. split; [exact B|]. split; [rewrite C; reflexivity|].
    intros g Hg. apply D. cbn [s_disk with_disk d_mt set_mt]. unfold upd. destruct (String.eqb _ _); [discriminate|exact Hg].
Qed.

Theorem processes_current rg e d0 evs h st c st' :
  templates_ok e -> history rg e d0 evs h st -> s_pc st = Idle -> permitted e h c ->
  (forall f, In f (tracked c) -> d_mt (s_disk st) f <> None) -> processes e c st st' ->
  all_current e c (s_disk st') /\
  (forall ord2, ord_ok ord2 (sources c) = true -> forallb is_fok (all_commands e c ord2) = true ->
     exists st2, exec e st' (idle_run c ord2) = Some st2 /\ s_ok st2 = true /\ s_disk st2 = s_disk st' /\ s_log st2 = s_log st').
Proof.
  intros T H P Pm Ex X.
  assert (Sf : forall u, stored (s_disk st) = Some u -> SafeS rg e h (s_disk st) u) by exact (idle_safe rg e d0 evs h st T H P).
  assert (K : s_pc st' = Idle /\ (forall f, In f (tracked c) -> d_mt (s_disk st') f <> None) /\ all_current e c (s_disk st') /\
              exists t, stored (s_disk st') = Some t /\ allclean t c (d_mt (s_disk st'))).
  { induction X as [st n ord l s N Hn F X A O|st st1 edits st2 n ord l s X1 IH Ed Fe N Hn F X A O].
    - destruct (one_process rg e h st c n ord l s Pm Ex Sf P N Hn F X A O) as (M & B).
      split; [reflexivity|]. cbn [s_disk with_pc]. rewrite M. split; [exact Ex|]. rewrite <- M. exact B.
    - destruct (IH H P Ex Sf) as (P1 & Ex1 & C1 & t & S1 & A1). destruct (edits_keep e edits st1 st2 Fe Ed) as (E1 & E2 & E3 & E4).
      assert (Ex2 : forall f, In f (tracked c) -> d_mt (s_disk st2) f <> None) by (intros f Hf; exact (E4 f (Ex1 f Hf))).
      assert (Sf2 : forall u, stored (s_disk st2) = Some u -> SafeS Quiet e (only c) (s_disk st2) u).
      { intros u Hu. unfold stored in Hu, S1. rewrite E3, S1 in Hu. injection Hu as <-.
        apply (SafeS_mono Quiet e (only c) (only c) (s_disk st1)); [exact (current_safe e c _ t C1 A1)|exact E2|intros m _; exact Logic.I|auto]. }
      rewrite P1 in E1.
      destruct (one_process Quiet e (only c) st2 c n ord l s (only_permitted e c (proj1 Pm)) Ex2 Sf2 E1 N Hn F X A O) as (M & B).
      split; [reflexivity|]. cbn [s_disk with_pc]. rewrite M. split; [exact Ex2|]. rewrite <- M. exact B. }
  destruct K as (P1 & _ & C1 & t & S1 & A1). split; [exact C1|]. intros ord2 Oo Fk.
  destruct (idle_from e c t st' ord2 (nodup_sources e c (proj1 Pm)) P1 S1 A1 Oo Fk) as (st2 & Y1 & Y2 & _ & Y4 & Y5).
  exists st2. auto.
Qed.

(** A PCH and a source were edited; a process with two calls; a process with two calls. *)
Lemma then_case : exists h st s s2, history Forward e0 disk0 past h st /\ s_pc st = Idle /\ permitted e0 h cP /\
  (forall f, In f (tracked cP) -> d_mt (s_disk st) f <> None) /\ ~ In (FOk "") (all_commands e0 cP ordA) /\
  Forall smooth both /\ Forall smooth rest2 /\
  du_exec e0 (du_begin st) (DuStart 2 cP ordA :: both) = Some s /\ all_ended s /\ s_ok (du_st s) = true /\
  du_exec e0 (du_begin (with_pc (du_st s) Idle)) (DuStart 2 cP ordA :: rest2) = Some s2 /\ all_ended s2 /\ s_ok (du_st s2) = true /\
  length (s_log st) + 8 <= length (s_log (du_st s)).
Proof.
  destruct (follow_case Forward e0 disk0 past (fun h st => idleb st && permittedb e0 h cP &&
    forallb (fun f => match d_mt (s_disk st) f with Some _ => true | None => false end) (tracked cP) &&
    match du_exec e0 (du_begin st) (DuStart 2 cP ordA :: both) with
    | Some s => s_ok (du_st s) && all_idle s && Nat.leb (length (s_log st) + 8) (length (s_log (du_st s))) &&
        match du_exec e0 (du_begin (with_pc (du_st s) Idle)) (DuStart 2 cP ordA :: rest2) with
        | Some s2 => s_ok (du_st s2) && all_idle s2 | None => false end
    | None => false end)) as (h & st & H & P).
  { vm_compute. reflexivity. }
  apply andb_true_iff in P as [P P5]. apply andb_true_iff in P as [P P3]. apply andb_true_iff in P as [P1 P2].
  destruct (du_exec e0 (du_begin st) (DuStart 2 cP ordA :: both)) as [s|] eqn:X; [|discriminate P5].
  apply andb_true_iff in P5 as [P5 P8]. apply andb_true_iff in P5 as [P5 P7]. apply andb_true_iff in P5 as [P5 P6].
  destruct (du_exec e0 (du_begin (with_pc (du_st s) Idle)) (DuStart 2 cP ordA :: rest2)) as [s2|] eqn:X2; [|discriminate P8].
  apply andb_true_iff in P8 as [P8 P9].
  assert (F : Forall smooth both) by (apply smooth_all; reflexivity).
  assert (F2 : Forall smooth rest2) by (apply smooth_all; reflexivity).
  exists h, st, s, s2. split; [exact H|]. split; [exact (idleb_sound st P1)|]. split; [apply permittedb_sound; exact P2|]. split.
  { intros f Hf K. rewrite forallb_forall in P3. specialize (P3 f Hf). rewrite K in P3. discriminate P3. }
  split.
  { intros K. assert (B : forallb (fun r => match r with FOk cmd => negb (String.eqb cmd "") | _ => true end) (all_commands e0 cP ordA) = true)
      by (vm_compute; reflexivity). rewrite forallb_forall in B. specialize (B _ K). discriminate B. }
  split; [exact F|]. split; [exact F2|]. split; [exact X|]. split; [exact (ended_sound _ _ _ _ _ _ _ F X P6)|]. split; [exact P5|].
  split; [exact X2|]. split; [exact (ended_sound _ _ _ _ _ _ _ F2 X2 P9)|]. split; [exact P8|]. apply Nat.leb_le. exact P7.
Qed.

(** Then a source is edited, and a third process calls Build() twice. *)
Definition edit3 : list event := [EvEdit "/p/a.cpp" (Some 99%N)].
Definition both3 : list duevent :=
  [DuTask 0 EvPchCheck; DuTask 1 EvPchCheck; DuTask 0 EvObjCheck; DuTask 0 (EvCompile "/p/a.cpp" XOk); DuTask 1 EvObjCheck;
   DuTask 0 EvLinkCheck; DuTask 0 (EvLinkExec XOk); DuTask 1 (EvCompile "/p/a.cpp" XOk); DuTask 0 (EvEnd WOk);
   DuTask 1 (EvCompile "/p/b.cpp" XOk); DuTask 1 EvLinkCheck; DuTask 1 (EvLinkExec XOk); DuTask 1 (EvEnd WOk)].
Lemma processes_case : exists h st st', history Forward e0 disk0 past h st /\ s_pc st = Idle /\ permitted e0 h cP /\
  (forall f, In f (tracked cP) -> d_mt (s_disk st) f <> None) /\ processes e0 cP st st' /\
  length (s_log st) + 13 <= length (s_log st') /\
  ord_ok ordA (sources cP) = true /\ forallb is_fok (all_commands e0 cP ordA) = true.
Proof.
  destruct (follow_case Forward e0 disk0 past (fun h st => idleb st && permittedb e0 h cP &&
    forallb (fun f => match d_mt (s_disk st) f with Some _ => true | None => false end) (tracked cP) &&
    match du_exec e0 (du_begin st) (DuStart 2 cP ordA :: both) with
    | Some s => s_ok (du_st s) && all_idle s &&
        match exec e0 (with_pc (du_st s) Idle) edit3 with
        | Some st2 => match du_exec e0 (du_begin st2) (DuStart 2 cP ordA :: both3) with
            | Some s2 => s_ok (du_st s2) && all_idle s2 && Nat.leb (length (s_log st) + 13) (length (s_log (du_st s2))) | None => false end
        | None => false end
    | None => false end)) as (h & st & H & P).
  { vm_compute. reflexivity. }
  apply andb_true_iff in P as [P P5]. apply andb_true_iff in P as [P P3]. apply andb_true_iff in P as [P1 P2].
  destruct (du_exec e0 (du_begin st) (DuStart 2 cP ordA :: both)) as [s|] eqn:X; [|discriminate P5].
  apply andb_true_iff in P5 as [P5 P8]. apply andb_true_iff in P5 as [P5 P6].
  destruct (exec e0 (with_pc (du_st s) Idle) edit3) as [st2|] eqn:Y; [|discriminate P8].
  destruct (du_exec e0 (du_begin st2) (DuStart 2 cP ordA :: both3)) as [s2|] eqn:X2; [|discriminate P8].
  apply andb_true_iff in P8 as [P8 P10]. apply andb_true_iff in P8 as [P8 P9].
  assert (F : Forall smooth both) by (apply smooth_all; reflexivity).
  assert (F2 : Forall smooth both3) by (apply smooth_all; reflexivity).
  assert (B : ~ In (FOk "") (all_commands e0 cP ordA)).
  { intros K. assert (B : forallb (fun r => match r with FOk cmd => negb (String.eqb cmd "") | _ => true end) (all_commands e0 cP ordA) = true)
      by (vm_compute; reflexivity). rewrite forallb_forall in B. specialize (B _ K). discriminate B. }
  exists h, st, (with_pc (du_st s2) Idle). split; [exact H|]. split; [exact (idleb_sound st P1)|]. split; [apply permittedb_sound; exact P2|]. split.
  { intros f Hf K. rewrite forallb_forall in P3. specialize (P3 f Hf). rewrite K in P3. discriminate P3. }
  split.
  { apply (ps_next e0 cP st (with_pc (du_st s) Idle) edit3 st2 2 ordA both3 s2);
      [|exact Y|repeat constructor|discriminate|exact B|exact F2|exact X2|exact (ended_sound _ _ _ _ _ _ _ F2 X2 P9)|exact P8].
    apply (ps_first e0 cP st 2 ordA both s);
      [discriminate|exact B|exact F|exact X|exact (ended_sound _ _ _ _ _ _ _ F X P6)|exact P5]. }
  split; [apply Nat.leb_le; exact P10|]. split; vm_compute; reflexivity.
Qed.
