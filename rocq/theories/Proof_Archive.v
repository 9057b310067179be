(** The contents of static libraries. *)
From Coq Require Import Permutation Lia.
From Verif Require Import Prelude Proof_Prelude Model_Path Model_Json Model_Schema Spec_Json Model_Command Spec_Command
  Model_ToolchainConfig Model_Target Spec_Target Proof_TargetBase Proof_TargetInv Proof_TargetRun Proof_TargetStep Proof_TargetMain
  Proof_TargetRuns Model_Reg Model_Project Proof_Project Model_CompileCommands Model_Database Spec_Database Proof_Database Proof_Database2
  Model_Archive Spec_Archive.

(** ** ar *)

Definition olds (l : list (bool * (string * obj_art))) : list (string * obj_art) := map snd (filter fst l).
Definition news (l : list (bool * (string * obj_art))) : list (string * obj_art) := map snd (filter (fun x => negb (fst x)) l).

Lemma occ_cons n x l : occurrences n (x :: l) = (if String.eqb n x then 1 else 0) + occurrences n l.
Proof. unfold occurrences. cbn [filter]. destruct (String.eqb n x); reflexivity. Qed.
Lemma occ_app n a b : occurrences n (a ++ b) = occurrences n a + occurrences n b.
Proof. unfold occurrences. rewrite filter_app, app_length. reflexivity. Qed.
Lemma occ_perm n a b : Permutation a b -> occurrences n a = occurrences n b.
Proof.
  intros P. induction P as [|x a b P IH|x y a|a b c P1 IH1 P2 IH2]; [reflexivity|rewrite !occ_cons; lia|rewrite !occ_cons; lia|lia].
Qed.
Lemma occ_incl {A} (f : A -> string) (a b : list A) n : NoDup a -> incl a b -> occurrences n (map f a) <= occurrences n (map f b).
Proof.
  revert b. induction a as [|x a IH]; intros b N I; [unfold occurrences; cbn; lia|].
  inversion N as [|? ? N1 N2]; subst. destruct (in_split x b (I x (or_introl eq_refl))) as (b1 & b2 & ->).
  assert (I' : incl a (b1 ++ b2)).
  { intros y Hy. assert (K := I y (or_intror Hy)). apply in_app_iff in K. apply in_app_iff. destruct K as [K|[<-|K]]; [auto|destruct (N1 Hy)|auto]. }
  specialize (IH _ N2 I'). rewrite map_app in *. cbn [map]. rewrite occ_app in *. rewrite !occ_cons. lia.
Qed.
Lemma occ_zero (l : list string) : (forall n, occurrences n l = 0) -> l = [].
Proof. destruct l as [|x l]; [reflexivity|]. intros H. specialize (H x). rewrite occ_cons, String.eqb_refl in H. lia. Qed.

Lemma replace_news l f : Permutation (news (ar_replace l f)) (f :: news l).
Proof.
  induction l as [|[o m] l IH]; [reflexivity|]. cbn [ar_replace]. destruct o; cbn [andb].
  - destruct (String.eqb (fst m) (fst f)); [reflexivity|exact IH].
  - change (Permutation (m :: news (ar_replace l f)) (f :: m :: news l)). rewrite IH. apply perm_swap.
Qed.
Lemma replace_olds l f n : occurrences n (map fst (olds (ar_replace l f))) = occurrences n (map fst (olds l)) - (if String.eqb n (fst f) then 1 else 0).
Proof.
  induction l as [|[o m] l IH]; [unfold occurrences; cbn; destruct (String.eqb n (fst f)); reflexivity|]. cbn [ar_replace]. destruct o; cbn [andb].
  - destruct (String.eqb_spec (fst m) (fst f)) as [E|E].
    + change (occurrences n (map fst (olds l)) = occurrences n (fst m :: map fst (olds l)) - (if String.eqb n (fst f) then 1 else 0)).
      rewrite occ_cons, E. destruct (String.eqb n (fst f)); lia.
    + change (occurrences n (fst m :: map fst (olds (ar_replace l f))) = occurrences n (fst m :: map fst (olds l)) - (if String.eqb n (fst f) then 1 else 0)).
      rewrite !occ_cons, IH. destruct (String.eqb_spec n (fst m)) as [->|].
      * destruct (String.eqb_spec (fst m) (fst f)); [congruence|lia].
      * lia.
  - exact IH.
Qed.
Lemma fold_news files : forall l, Permutation (news (fold_left ar_replace files l)) (files ++ news l).
Proof.
  induction files as [|f files IH]; intros l; [reflexivity|]. cbn [fold_left app]. rewrite IH, replace_news. symmetry. apply Permutation_middle.
Qed.
Lemma fold_olds files n : forall l, occurrences n (map fst (olds (fold_left ar_replace files l))) = occurrences n (map fst (olds l)) - occurrences n (map fst files).
Proof.
  induction files as [|f files IH]; intros l; [cbn [fold_left map]; change (occurrences n []) with 0; lia|]. cbn [fold_left map]. rewrite IH, replace_olds, occ_cons. lia.
Qed.
Lemma split_flags l : Permutation (map snd l) (olds l ++ news l).
Proof.
  induction l as [|[o m] l IH]; [reflexivity|]. destruct o.
  - change (Permutation (m :: map snd l) (m :: olds l ++ news l)). apply perm_skip. exact IH.
  - change (Permutation (m :: map snd l) (olds l ++ m :: news l)). rewrite IH. apply Permutation_middle.
Qed.
Lemma olds_start (a : archive) : olds (map (fun m => (true, m)) a) = a.
Proof. unfold olds. induction a as [|m a IH]; [reflexivity|]. cbn. rewrite IH. reflexivity. Qed.
Lemma news_start (a : archive) : news (map (fun m => (true, m)) a) = [].
Proof. unfold news. induction a as [|m a IH]; [reflexivity|]. exact IH. Qed.

Lemma replace_incl l f : incl (olds (ar_replace l f)) (olds l).
Proof.
  induction l as [|[o m] l IH]; intros x H; [destruct H|]. cbn [ar_replace] in H. destruct o; cbn [andb] in H.
  - destruct (String.eqb (fst m) (fst f)); [right; exact H|]. destruct H as [H|H]; [left; exact H|right; exact (IH x H)].
  - exact (IH x H).
Qed.
Lemma fold_incl files : forall l, incl (olds (fold_left ar_replace files l)) (olds l).
Proof.
  induction files as [|f files IH]; intros l x H; [exact H|]. cbn [fold_left] in H. exact (replace_incl _ _ x (IH _ x H)).
Qed.

(** The files, and the members of other names (or of equal names, if there were more of them). *)
Lemma ar_members a files : exists rest, Permutation (ar_rcs a files) (files ++ rest) /\
  incl rest (match a with Some l => l | None => [] end) /\ forall n, occurrences n (map fst rest) = occurrences n (map fst (match a with Some l => l | None => [] end)) - occurrences n (map fst files).
Proof.
  unfold ar_rcs. set (a0 := match a with Some l => l | None => [] end). set (L := fold_left _ _ _). exists (olds L). split.
  - rewrite split_flags. unfold L. rewrite fold_news, news_start, app_nil_r. apply Permutation_app_comm.
  - split; [intros x H; rewrite <- olds_start; exact (fold_incl files _ x H)|]. intros n. unfold L. rewrite fold_olds, olds_start. reflexivity.
Qed.
Lemma ar_exact a files : (forall m n, a = Some m -> occurrences n (map fst m) <= occurrences n (map fst files)) -> Permutation (ar_rcs a files) files.
Proof.
  intros H. destruct (ar_members a files) as (rest & P & _ & C). assert (map fst rest = []) as E.
  { apply occ_zero. intros n. rewrite C. destruct a as [m|]; [specialize (H m n eq_refl); lia|unfold occurrences; cbn; lia]. }
  destruct rest; [|discriminate]. rewrite app_nil_r in P. exact P.
Qed.

(** ** Object files *)

Lemma object_files_names e objs ord files : object_files e objs ord = Some files -> map fst files = map (member_name e) ord.
Proof.
  revert files. induction ord as [|s ord IH]; intros files H; cbn [object_files] in H; [injection H as <-; reflexivity|].
  destruct (objs (obj_of e s)); [|discriminate]. destruct (object_files e objs ord) as [l|]; [|discriminate]. injection H as <-.
  cbn [map fst]. rewrite (IH _ eq_refl). reflexivity.
Qed.
Lemma object_files_ext e objs objs' ord : (forall s, In s ord -> objs (obj_of e s) = objs' (obj_of e s)) -> object_files e objs ord = object_files e objs' ord.
Proof.
  induction ord as [|s ord IH]; intros H; [reflexivity|]. cbn [object_files]. rewrite (H s (or_introl eq_refl)), IH; [reflexivity|].
  intros x Hx. apply H. right. exact Hx.
Qed.
Lemma object_files_perm e objs a b : Permutation a b -> forall files, object_files e objs a = Some files ->
  exists files', object_files e objs b = Some files' /\ Permutation files files'.
Proof.
  intros P. induction P as [|s a b P IH|x y a|a b c P1 IH1 P2 IH2]; intros files H; cbn [object_files] in *.
  - exists files. auto.
  - destruct (objs (obj_of e s)) as [o|]; [|discriminate]. destruct (object_files e objs a) as [l|]; [|discriminate]. injection H as <-.
    destruct (IH l eq_refl) as (l' & -> & P'). exists ((member_name e s, o) :: l'). split; [reflexivity|]. apply perm_skip. exact P'.
  - destruct (objs (obj_of e y)) as [o|]; [|discriminate]. destruct (objs (obj_of e x)) as [o'|]; [|discriminate].
    destruct (object_files e objs a) as [l|]; [|discriminate]. injection H as <-. eexists. split; [reflexivity|]. apply perm_swap.
  - destruct (IH1 _ H) as (f1 & H1 & Q1). destruct (IH2 _ H1) as (f2 & H2 & Q2). exists f2. split; [exact H2|]. exact (Permutation_trans Q1 Q2).
Qed.
Lemma object_files_combine e objs ord files : object_files e objs ord = Some files ->
  exists arts, Forall2 (fun s a => objs (obj_of e s) = Some a) ord arts /\ files = combine (map (member_name e) ord) arts.
Proof.
  revert files. induction ord as [|s ord IH]; intros files H; cbn [object_files] in H; [injection H as <-; exists []; split; [constructor|reflexivity]|].
  destruct (objs (obj_of e s)) as [o|] eqn:E; [|discriminate]. destruct (object_files e objs ord) as [l|]; [|discriminate]. injection H as <-.
  destruct (IH l eq_refl) as (arts & F & ->). exists (o :: arts). split; [constructor; assumption|reflexivity].
Qed.

(** ** The invariant *)

Section Library.
Context (e : tenv).

Definition Good (lib : option archive) (d : disk) (ord : list string) : Prop :=
  exists m k files, lib = Some m /\ d_tgt d = Some k /\ object_files e (l_objs k) ord = Some files /\ Permutation m files.

Record LI (st : tstate) (lib : option archive) : Prop := {
  li_nd : NoDup (sources (s_cfg st));
  li_names : forall m n, lib = Some m -> occurrences n (map fst m) <= occurrences n (map (member_name e) (sources (s_cfg st)));
  li_run : s_pc st <> Idle -> RunI st /\ s_load st = stored (s_disk st) /\ Permutation (s_ord st) (sources (s_cfg st));
  li_store : forall l, stored (s_disk st) = Some l -> ts_target_linked l = true ->
    incl (il_paths (ts_sources l)) (sources (s_cfg st)) /\
    (d_tgt_bad (s_disk st) = false -> exists ord, Good lib (s_disk st) ord /\ NoDup ord /\
       incl (il_paths (ts_sources l)) ord /\ incl ord (sources (s_cfg st)));
  li_end : s_pc st = PcEnd -> ts_target_linked (s_buf st) = true -> d_tgt_bad (s_disk st) = false /\ Good lib (s_disk st) (s_ord st);
  li_idle : s_pc st = Idle -> s_ok st = true -> exists ord, Permutation ord (sources (s_cfg st)) /\
    (d_tgt_bad (s_disk st) = false -> Good lib (s_disk st) ord) }.

Lemma Good_tgt lib d d' ord : d_tgt d' = d_tgt d -> Good lib d ord -> Good lib d' ord.
Proof using Type. intros E (m & k & files & A & B & C). exists m, k, files. rewrite E. auto. Qed.

(** Steps other than the link leave the library alone. *)
Lemma tgt_same st ev st' : step e st ev = Some st' -> (forall r, ev <> EvLinkExec r) -> ev <> EvDelTgt ->
  d_tgt (s_disk st') = d_tgt (s_disk st) /\ d_tgt_bad (s_disk st') = d_tgt_bad (s_disk st).
Proof using Type.
  intros S N1 N2. destruct ev; cbn [step] in S; try (injection S as <-; split; reflexivity); try (destruct (N1 _ eq_refl)); try (destruct (N2 eq_refl));
    destruct (s_pc st) eqn:Pc; try discriminate; try (injection S as <-; split; reflexivity).
  - unfold start in S. destruct (_ || _); [discriminate|]. destruct (forallb _ _); injection S as <-; split; reflexivity.
  - injection S as <-. unfold pch_check. destruct (s_ok st); cbn [negb]; [destruct (pch_pre _ _) as [u b]; destruct b; cbn [negb]; [destruct (_ || _)|]|]; split; reflexivity.
  - unfold pch_exec in S. destruct (pch_command _ _); try discriminate. injection S as <-. destruct (run_res _ _); split; reflexivity.
  - injection S as <-. unfold obj_check. destruct (s_ok st); cbn [negb]; [destruct (obj_pre _ _) as [u b]; destruct b; cbn [negb]; [|]|]; try (split; reflexivity).
    match goal with |- context [let '(_, _) := ?t in _] => destruct t as [[sel dum] d'] end. split; reflexivity.
  - unfold compile_one in S. destruct (take_pending _ _) as [[i rest]|]; try discriminate. destruct (compile_command _ _ _); try discriminate.
    injection S as <-. destruct (run_res _ _); split; reflexivity.
  - destruct pending; try discriminate. injection S as <-. unfold link_check. destruct (s_ok st); cbn [negb]; [destruct (link_pre _ _) as [u b]; destruct b; cbn [negb]; [|]|]; split; reflexivity.
  - unfold end_task in S. destruct (s_dirty st).
    + destruct (store_text _); destruct w; try discriminate; try (injection S as <-; split; reflexivity).
      destruct (short n _); [|discriminate]. destruct reported_ok; injection S as <-; split; reflexivity.
    + destruct w; try discriminate. injection S as <-. split; reflexivity.
  - destruct (s_dirty st); [|discriminate]. destruct (bind _ _); [|discriminate]. injection S as <-. split; reflexivity.
Qed.
Lemma taskflow_ord st x st' : in_taskflow x = true -> step e st x = Some st' -> s_ord st' = s_ord st.
Proof using Type.
  intros F S. destruct x; try discriminate; cbn [step] in S; destruct (s_pc st) eqn:Pc; try discriminate.
  - injection S as <-. unfold pch_check. destruct (s_ok st); cbn [negb]; [destruct (pch_pre _ _) as [u b]; destruct b; cbn [negb]; [destruct (_ || _)|]|]; reflexivity.
  - unfold pch_exec in S. destruct (pch_command _ _); try discriminate. injection S as <-. destruct (run_res _ _); reflexivity.
  - injection S as <-. unfold obj_check. destruct (s_ok st); cbn [negb]; [destruct (obj_pre _ _) as [u b]; destruct b; cbn [negb]; [|]|]; try reflexivity.
    match goal with |- context [let '(_, _) := ?t in _] => destruct t as [[sel dum] d'] end. reflexivity.
  - unfold compile_one in S. destruct (take_pending _ _) as [[i rest]|]; try discriminate. destruct (compile_command _ _ _); try discriminate.
    injection S as <-. destruct (run_res _ _); reflexivity.
  - destruct pending; try discriminate. injection S as <-. unfold link_check. destruct (s_ok st); cbn [negb]; [destruct (link_pre _ _) as [u b]; destruct b; cbn [negb]; [|]|]; reflexivity.
  - unfold link_exec in S. destruct (link_command _ _ _); try discriminate. injection S as <-. destruct (run_res _ _); reflexivity.
  - unfold end_task in S. destruct (s_dirty st).
    + destruct (store_text _); destruct w; try discriminate; try (injection S as <-; reflexivity).
      destruct (short n _); [|discriminate]. destruct reported_ok; injection S as <-; reflexivity.
    + destruct w; try discriminate. injection S as <-. reflexivity.
Qed.

(** Only the disk's times, the task state or the state file (now missing or cut short) change. *)
Lemma LI_disk st lib st' : LI st lib -> s_cfg st' = s_cfg st -> d_tgt (s_disk st') = d_tgt (s_disk st) -> d_tgt_bad (s_disk st') = d_tgt_bad (s_disk st) ->
  (stored (s_disk st') = stored (s_disk st) \/ stored (s_disk st') = None) ->
  (s_pc st' = Idle -> s_ok st' = true -> s_pc st = Idle /\ s_ok st = true) ->
  (s_pc st' <> Idle -> RunI st' /\ s_load st' = stored (s_disk st') /\ s_ord st' = s_ord st /\ s_pc st' = s_pc st /\ s_buf st' = s_buf st) ->
  LI st' lib.
Proof using Type.
  intros [A B C D E F] Ec Et Eb Es Ei Er. constructor; rewrite ?Ec, ?Eb; try assumption.
  - intros Hp. destruct (Er Hp) as (R1 & R2 & R3 & R4 & _). split; [exact R1|]. split; [exact R2|]. rewrite R3. rewrite R4 in Hp. destruct (C Hp) as (_ & _ & K). exact K.
  - intros l Hl Hk. destruct Es as [Es|Es]; [|congruence]. rewrite Es in Hl. destruct (D l Hl Hk) as [D1 D2]. split; [exact D1|]. intros Hb.
    destruct (D2 Hb) as (ord & G & Q). exists ord. split; [exact (Good_tgt _ _ _ _ Et G)|exact Q].
  - intros Hp Hk. assert (Hn : s_pc st' <> Idle) by congruence. destruct (Er Hn) as (_ & _ & R3 & R4 & R5). rewrite R4 in Hp. rewrite R5 in Hk.
    destruct (E Hp Hk) as [E1 E2]. split; [exact E1|]. rewrite R3. exact (Good_tgt _ _ _ _ Et E2).
  - intros Hp Ho. destruct (Ei Hp Ho) as [Hp' Ho']. destruct (F Hp' Ho') as (ord & P & G). exists ord. split; [exact P|]. intros Hb. exact (Good_tgt _ _ _ _ Et (G Hb)).
Qed.

Lemma LI_start st lib c ord st' : LI st lib -> step e st (EvStart c ord) = Some st' -> NoDup (sources c) ->
  (forall s, In s (sources (s_cfg st)) -> In s (sources c)) -> LI st' lib.
Proof using Type.
  intros I S N K. cbn [step] in S. destruct (s_pc st) eqn:Pc; try discriminate.
  destruct (forallb is_fok (all_commands e c ord)) eqn:Ef.
  - destruct (RunI_start _ _ _ _ _ S Ef) as (R & P1 & P2 & P3 & P4 & P5).
    assert (Eo : Permutation (s_ord st') (sources c)).
    { unfold start in S. destruct (ord_ok ord (sources c)) eqn:Eo; [|discriminate]. destruct (existsb _ _); [discriminate|]. cbn [negb orb] in S.
      rewrite Ef in S. injection S as <-. cbn [s_ord]. exact (ord_ok_perm _ _ N Eo). }
    destruct I as [A B C D E F]. constructor; rewrite ?P1, ?P5; try assumption; try congruence.
    + intros m n Hm. eapply Nat.le_trans; [exact (B m n Hm)|]. exact (occ_incl (member_name e) _ _ n A K).
    + intros _. split; [exact R|]. split; [congruence|exact Eo].
    + intros l Hl Hk. destruct (D l Hl Hk) as [D1 D2]. split; [exact (fun x Hx => K x (D1 x Hx))|]. intros Hb.
      destruct (D2 Hb) as (o & G & Q1 & Q2 & Q3). exists o. split; [exact G|]. split; [exact Q1|]. split; [exact Q2|exact (fun x Hx => K x (Q3 x Hx))].
    + intros Hp Hk. pose proof (ri_nolink _ R) as Z. exfalso. unfold start in S. destruct (_ || _); [discriminate|]. rewrite Ef in S. injection S as <-. discriminate.
  - unfold start in S. destruct (_ || _); [discriminate|]. rewrite Ef in S. injection S as <-.
    apply (LI_disk st); try reflexivity; stp; auto; try discriminate. congruence.
Qed.

Lemma same_set_perm (a b : list string) : NoDup a -> NoDup b -> (forall x, In x a <-> In x b) -> Permutation a b.
Proof using Type. intros. apply NoDup_Permutation; assumption. Qed.

Lemma LI_end st lib w st' : LI st lib -> step e st (EvEnd w) = Some st' -> LI st' lib.
Proof using Type.
  intros [A B C D E F] S. destruct (end_cases _ _ _ _ S) as (P1 & P2 & P3 & P4 & K).
  destruct (tgt_same _ _ _ S (fun r h => ltac:(discriminate h)) ltac:(discriminate)) as [T1 T2].
  assert (Hn : s_pc st <> Idle) by congruence. destruct (C Hn) as (R & Ld & Po).
  assert (Lk : ts_target_linked (s_buf st) = true -> d_tgt_bad (s_disk st') = false /\ Good lib (s_disk st') (s_ord st)).
  { intros Hk. destruct (E P1 Hk) as [E1 E2]. split; [congruence|exact (Good_tgt _ _ _ _ T1 E2)]. }
  constructor; rewrite ?P3, ?T2; try assumption; try congruence.
  - intros l Hl Hk. destruct K as [[K _]|[[K _]|[K _]]].
    + rewrite K in Hl. destruct (D l Hl Hk) as [D1 D2]. split; [exact D1|]. intros Hb. destruct (D2 Hb) as (ord & G & Q).
      exists ord. split; [exact (Good_tgt _ _ _ _ T1 G)|exact Q].
    + congruence.
    + rewrite K in Hl. injection Hl as <-. tsp. destruct (Lk Hk) as [_ G]. pose proof (written_full _ R Hk) as [De _].
      pose proof (de_srcs _ _ De) as Sr. unfold Srcs in Sr. tsp. split; [intros x Hx; exact (proj1 (Sr x) Hx)|]. intros _. exists (s_ord st).
      split; [exact G|]. split; [exact (Permutation_NoDup (Permutation_sym Po) A)|]. split.
      * intros x Hx. apply (Permutation_in _ (Permutation_sym Po)). exact (proj1 (Sr x) Hx).
      * intros x Hx. exact (Permutation_in _ Po Hx).
  - intros _ Ho. pose proof (ri_stg _ R) as Sg. unfold Stg in Sg. rewrite P1 in Sg. destruct (Sg (P4 Ho)) as [Sg1 Sg2].
    destruct (s_dirty st) eqn:Ed.
    + destruct (Lk (Sg1 eq_refl)) as [L1 L2]. exists (s_ord st). split; [exact Po|]. intros _. exact L2.
    + destruct (Sg2 eq_refl) as (l & Hl & De). rewrite Ld in Hl. destruct (D l Hl (de_done _ _ De)) as [D1 D2].
      destruct (d_tgt_bad (s_disk st)) eqn:Eb.
      * exists (s_ord st). split; [exact Po|]. discriminate.
      * destruct (D2 eq_refl) as (ord & G & Q1 & Q2 & Q3). exists ord. split; [|intros _; exact (Good_tgt _ _ _ _ T1 G)].
        apply same_set_perm; [exact Q1|exact A|]. intros x. split; [exact (Q3 x)|]. intros Hx. apply Q2. apply (de_srcs _ _ De). exact Hx.
Qed.

Lemma LI_link st lib r lo st' lib' : LI st lib -> lstep e st lib (EvLinkExec r) lo = Some (st', lib') ->
  leaves_own e st (EvLinkExec r) lo -> LI st' lib'.
Proof using Type.
  intros I S O. unfold lstep in S. destruct (step e st (EvLinkExec r)) as [s1|] eqn:Ss; [|discriminate].
  pose proof Ss as S0. cbn [step] in Ss. destruct (s_pc st) eqn:Pc; try discriminate. unfold link_exec in Ss.
  destruct (link_command e (s_cfg st) (s_ord st)) as [cmd| |]; try discriminate.
  assert (NI : s_pc st <> Idle) by congruence. destruct I as [A B C D E F]. destruct (C NI) as (R & Ld & Po).
  assert (NI' : s_pc s1 <> Idle) by (injection Ss as <-; destruct (run_res cmd r); discriminate).
  pose proof (RunI_step e st (EvLinkExec r) s1 eq_refl S0 R NI') as R'.
  destruct (taskflow_store e st (EvLinkExec r) s1 eq_refl S0 ltac:(discriminate)) as [T1 T2].
  destruct (taskflow_step e st (EvLinkExec r) s1 eq_refl S0) as (T3 & _).
  pose proof (taskflow_ord st (EvLinkExec r) s1 eq_refl S0) as T4.
  assert (Es : stored (s_disk s1) = stored (s_disk st)) by (unfold stored; rewrite T1; reflexivity).
  pose proof (ri_nolink _ R) as Nl. rewrite Pc in Nl.
  destruct (run_res cmd r) as [|o|] eqn:Er.
  - destruct (object_files e (d_obj (s_disk st)) (s_ord st)) as [files|] eqn:Ef; [|discriminate]. injection S as <- <-.
    assert (Pm : Permutation (ar_rcs lib files) files).
    { apply ar_exact. intros m n Hm. rewrite (object_files_names _ _ _ _ Ef).
      rewrite (occ_perm n _ _ (Permutation_map (member_name e) Po)). exact (B m n Hm). }
    assert (G : d_tgt_bad (s_disk s1) = false /\ Good (Some (ar_rcs lib files)) (s_disk s1) (s_ord s1)).
    { injection Ss as <-. stp. split; [reflexivity|]. exists (ar_rcs lib files). eexists. exists files. split; [reflexivity|]. split; [reflexivity|]. split; [exact Ef|exact Pm]. }
    constructor; rewrite ?T3; try assumption; try congruence.
    + intros m n [= <-]. rewrite (occ_perm n _ _ (Permutation_map fst Pm)), (object_files_names _ _ _ _ Ef).
      rewrite (occ_perm n _ _ (Permutation_map (member_name e) Po)). apply Nat.le_refl.
    + intros _. split; [exact R'|]. split; [congruence|]. rewrite T4. exact Po.
    + intros l Hl Hk. rewrite Es in Hl. destruct (D l Hl Hk) as [D1 _]. split; [exact D1|]. intros _. exists (s_ord s1). split; [exact (proj2 G)|].
      rewrite T4. split; [exact (Permutation_NoDup (Permutation_sym Po) A)|]. split.
      * intros x Hx. apply (Permutation_in _ (Permutation_sym Po)). exact (D1 x Hx).
      * intros x Hx. exact (Permutation_in _ Po Hx).
  - injection S as <- <-. assert (Bd : d_tgt_bad (s_disk s1) = true /\ s_buf s1 = s_buf st) by (injection Ss as <-; split; reflexivity). destruct Bd as [Bd Bb].
    constructor; rewrite ?T3; try assumption; try congruence.
    + intros m n ->. exact (O n).
    + intros _. split; [exact R'|]. split; [congruence|]. rewrite T4. exact Po.
    + intros l Hl Hk. rewrite Es in Hl. split; [exact (proj1 (D l Hl Hk))|congruence].
  - injection S as <- <-. assert (Bd : d_tgt_bad (s_disk s1) = true /\ s_buf s1 = s_buf st) by (injection Ss as <-; split; reflexivity). destruct Bd as [Bd Bb].
    constructor; rewrite ?T3; try assumption; try congruence.
    + intros _. split; [exact R'|]. split; [congruence|]. rewrite T4. exact Po.
    + intros l Hl Hk. rewrite Es in Hl. split; [exact (proj1 (D l Hl Hk))|congruence].
Qed.

(** A step of the run before the link. *)
Lemma LI_task st lib x st' : LI st lib -> in_taskflow x = true -> step e st x = Some st' -> (forall w, x <> EvEnd w) -> (forall r, x <> EvLinkExec r) -> LI st' lib.
Proof using Type.
  intros [A B C D E F] Tx S N1 N2. destruct (taskflow_step _ _ _ _ Tx S) as (T1 & T2 & T3 & _).
  destruct (taskflow_store _ _ _ _ Tx S N1) as [St Ls]. assert (Nd : x <> EvDelTgt) by (intros ->; discriminate).
  destruct (tgt_same _ _ _ S N2 Nd) as [G1 G2]. pose proof (taskflow_ord _ _ _ Tx S) as T4.
  assert (Es : stored (s_disk st') = stored (s_disk st)) by (unfold stored; rewrite St; reflexivity).
  assert (NI : s_pc st' <> Idle) by (intros K; destruct (T2 K) as [w Hw]; exact (N1 w Hw)).
  destruct (C T3) as (R & Ld & Po). pose proof (RunI_step _ _ _ _ Tx S R NI) as R'.
  constructor; rewrite ?T1, ?G2; try assumption; try congruence.
  - intros _. split; [exact R'|]. split; [congruence|]. rewrite T4. exact Po.
  - intros l Hl Hk. rewrite Es in Hl. destruct (D l Hl Hk) as [D1 D2]. split; [exact D1|]. intros Hb. destruct (D2 Hb) as (ord & G & Q).
    exists ord. split; [exact (Good_tgt _ _ _ _ G1 G)|exact Q].
  - intros Hp Hk. exfalso.
    assert (Z : ts_target_linked (s_buf st') = ts_target_linked (s_buf st) /\ s_pc st <> PcEnd).
    { destruct x; try discriminate; try (destruct (N1 _ eq_refl); fail); try (destruct (N2 _ eq_refl); fail); cbn [step] in S; destruct (s_pc st) eqn:Pc; try discriminate; (split; [|discriminate]).
      - injection S as <-. unfold pch_check. destruct (s_ok st); cbn [negb]; [destruct (pch_pre _ _) as [u b]; destruct b; cbn [negb]; [destruct (_ || _)|]|]; reflexivity.
      - unfold pch_exec in S. destruct (pch_command _ _); try discriminate. injection S as <-. destruct (run_res _ _); reflexivity.
      - injection S as <-. revert Hp. unfold obj_check. destruct (s_ok st); cbn [negb]; [destruct (obj_pre _ _) as [u b]; destruct b; cbn [negb]; [|]|]; try reflexivity; try discriminate.
        match goal with |- context [let '(_, _) := ?t in _] => destruct t as [[sel dum] d'] end. discriminate.
      - unfold compile_one in S. destruct (take_pending _ _) as [[i rest]|]; try discriminate. destruct (compile_command _ _ _); try discriminate.
        injection S as <-. destruct (run_res _ _); reflexivity.
      - destruct pending; try discriminate. injection S as <-. unfold link_check. destruct (s_ok st); cbn [negb]; [destruct (link_pre _ _) as [u b]; destruct b; cbn [negb]; [|]|]; reflexivity. }
    destruct Z as [Z1 Z2]. pose proof (ri_nolink _ R) as Z3. destruct (s_pc st); try congruence.
Qed.

Lemma lstep_other st lib ev lo st' lib' : lstep e st lib ev lo = Some (st', lib') -> (forall r, ev <> EvLinkExec r) -> ev <> EvDelTgt ->
  step e st ev = Some st' /\ lib' = lib.
Proof using Type.
  unfold lstep. intros S N1 N2. destruct (step e st ev) as [s1|]; [|discriminate].
  destruct ev; try (injection S as <- <-; split; reflexivity); [destruct (N2 eq_refl)|destruct (N1 _ eq_refl)].
Qed.

Lemma LI_step rg h st lib ev lo st' lib' : LI st lib -> admissible rg e h st ev -> keeps_sources st ev -> leaves_own e st ev lo ->
  lstep e st lib ev lo = Some (st', lib') -> LI st' lib'.
Proof using Type.
  intros I A K O S.
  assert (Dx : (exists r, ev = EvLinkExec r) \/ forall r, ev <> EvLinkExec r) by (destruct ev; try (right; discriminate); left; eauto).
  destruct Dx as [[r ->]|N1]; [exact (LI_link _ _ _ _ _ _ I S O)|].
  assert (N2 : ev <> EvDelTgt) by (intros ->; exact A).
  destruct (lstep_other _ _ _ _ _ _ S N1 N2) as [S' ->]. clear S. destruct (tgt_same _ _ _ S' N1 N2) as [G1 G2].
  destruct (in_taskflow ev) eqn:Tx.
  { assert (Dx : (exists w, ev = EvEnd w) \/ forall w, ev <> EvEnd w) by (destruct ev; try (right; discriminate); left; eauto).
    destruct Dx as [[w ->]|N3]; [exact (LI_end _ _ _ _ I S')|exact (LI_task _ _ _ _ I Tx S' N3 N1)]. }
  destruct ev; try discriminate; try (destruct A; fail).
  - cbn [step] in S'. injection S' as <-. apply (LI_disk st); try reflexivity; stp; auto. intros Hp. destruct (li_run _ _ I Hp) as (R1 & R2 & _). auto using RunI_edit.
  - cbn [step] in S'. injection S' as <-. apply (LI_disk st); try reflexivity; stp; auto; try discriminate. intros Hp. destruct (li_run _ _ I Hp) as (R1 & R2 & _). auto using RunI_fail.
  - cbn [step] in S'. destruct (s_pc st) eqn:Pc; try discriminate; injection S' as <-; (apply (LI_disk st); try reflexivity; stp; auto; try discriminate; congruence).
  - cbn [step] in S'. injection S' as <-. cbn [admissible] in A. apply (LI_disk st); try reflexivity; stp; auto; try congruence.
  - cbn [admissible] in A. destruct A as [A _]. apply (LI_start _ _ _ _ _ I S'); [exact (nodup_sources e c A)|exact K].
  - cbn [step] in S'. destruct (s_pc st) eqn:Pc; try discriminate. destruct (s_dirty st); [|discriminate].
    destruct (store_text (update_store (s_buf st) (s_user st))) as [t|] eqn:Et; [|discriminate]. cbn [bind] in S'.
    destruct (short n t) as [t'|] eqn:Es; [|discriminate]. injection S' as <-.
    pose proof (stored_short (s_disk st) _ _ _ _ Et Es) as Z.
    apply (LI_disk st); try reflexivity; stp; auto; try discriminate; try congruence.
Qed.

Lemma LI_init d0 : LI (init d0) None.
Proof using Type. constructor; try discriminate; [constructor|]. intros K. destruct (K eq_refl). Qed.

Lemma lhistory_LI rg d0 evs h st lib : lhistory rg e d0 evs h st lib -> LI st lib /\ history rg e d0 (map fst evs) h st.
Proof using Type.
  intros H. induction H as [|evs h st lib ev lo st' lib' H [I Hh] A K O S]; [split; [apply LI_init|constructor]|].
  split; [exact (LI_step _ _ _ _ _ _ _ _ I A K O S)|]. rewrite map_app. cbn [map fst]. apply history_snoc; [exact Hh|exact A|].
  unfold lstep in S. destruct (step e st ev) as [s1|]; [|discriminate]. f_equal.
  destruct ev; try (injection S as -> _; reflexivity). destruct (link_command _ _ _); try discriminate.
  destruct (run_res _ _); try (injection S as -> _; reflexivity). destruct (object_files _ _ _); [|discriminate]. injection S as -> _. reflexivity.
Qed.

Lemma library_of rg d0 evs h st lib : lhistory rg e d0 evs h st lib -> s_pc st = Idle -> s_ok st = true ->
  tgt_current e (s_cfg st) (d_mt (s_disk st)) (s_disk st) -> library_exact e (s_cfg st) (s_disk st) lib.
Proof using Type.
  intros H Pc Ho (k & ord' & T1 & T2 & _ & _ & _ & T3). destruct (lhistory_LI _ _ _ _ _ _ H) as [I _].
  destruct (li_idle _ _ I Pc Ho) as (ord & P & G). destruct (G T2) as (m & k' & files & -> & E1 & E2 & E3).
  rewrite T1 in E1. injection E1 as <-. rewrite (object_files_ext e (l_objs k) (d_obj (s_disk st)) ord) in E2.
  2: { intros s Hs. apply T3. exact (Permutation_in _ P Hs). }
  destruct (object_files_perm _ _ _ _ P _ E2) as (f' & E4 & P'). destruct (object_files_combine _ _ _ _ E4) as (arts & F & ->).
  exists m. split; [reflexivity|]. exists arts. split; [exact F|]. exact (Permutation_trans E3 P').
Qed.
End Library.

Lemma lstep_step e st lib ev lo st' lib' : lstep e st lib ev lo = Some (st', lib') -> step e st ev = Some st'.
Proof.
  unfold lstep. destruct (step e st ev) as [s1|]; [|discriminate]. intros S. f_equal.
  destruct ev; try (injection S as -> _; reflexivity). destruct (link_command _ _ _); try discriminate.
  destruct (run_res _ _); try (injection S as -> _; reflexivity). destruct (object_files _ _ _); [|discriminate]. injection S as -> _. reflexivity.
Qed.

(** Any link that succeeds. *)
Lemma linked_contents e st lib lo st' lib' : lstep e st lib (EvLinkExec XOk) lo = Some (st', lib') -> d_tgt_bad (s_disk st') = false ->
  exists m arts rest, lib' = Some m /\ Forall2 (fun s a => d_obj (s_disk st) (obj_of e s) = Some a) (s_ord st) arts /\
    Permutation m (combine (map (member_name e) (s_ord st)) arts ++ rest) /\
    incl rest (match lib with Some l => l | None => [] end) /\
    forall n, occurrences n (map fst rest) =
      occurrences n (map fst (match lib with Some l => l | None => [] end)) - occurrences n (map (member_name e) (s_ord st)).
Proof.
  intros S B. pose proof (lstep_step _ _ _ _ _ _ _ S) as S0. unfold lstep in S. rewrite S0 in S. cbn [step] in S0. destruct (s_pc st); try discriminate.
  unfold link_exec in S0. destruct (link_command e (s_cfg st) (s_ord st)) as [cmd| |]; try discriminate. injection S0 as <-.
  destruct (run_res cmd XOk); try discriminate B. destruct (object_files e (d_obj (s_disk st)) (s_ord st)) as [files|] eqn:Ef; [|discriminate].
  injection S as <-. destruct (object_files_combine _ _ _ _ Ef) as (arts & F & Ec). destruct (ar_members lib files) as (rest & P & Q & R).
  exists (ar_rcs lib files), arts, rest. split; [reflexivity|]. split; [exact F|]. rewrite <- Ec. split; [exact P|]. split; [exact Q|].
  intros n. rewrite (R n), (object_files_names _ _ _ _ Ef). reflexivity.
Qed.

Lemma library_quiet e d0 evs w lo h st lib : templates_ok e -> lhistory Quiet e d0 (evs ++ [(EvEnd w, lo)]) h st lib -> s_ok st = true ->
  library_exact e (s_cfg st) (s_disk st) lib.
Proof.
  intros T H O. destruct (lhistory_LI _ _ _ _ _ _ _ H) as [_ Hh]. rewrite map_app in Hh. cbn [map fst] in Hh.
  apply (library_of _ _ _ _ _ _ _ H); [|exact O|exact (quiet_target e d0 _ w h st T Hh O)].
  remember (map fst evs ++ [EvEnd w]) as l eqn:El. destruct Hh as [|evs' h' st' ev st2 _ _ S]; [destruct (map fst evs); discriminate|].
  apply app_inj_tail in El as [_ ->]. exact (proj1 (proj2 (step_end _ _ _ _ S))).
Qed.
Lemma library_forward e d0 pre c ord lo1 run w lo h st lib : templates_ok e ->
  lhistory Forward e d0 (pre ++ (EvStart c ord, lo1) :: run ++ [(EvEnd w, lo)]) h st lib ->
  (forall f t lo', ~ In (EvEdit f t, lo') run) -> s_ok st = true ->
  library_exact e (s_cfg st) (s_disk st) lib.
Proof.
  intros T H N O. destruct (lhistory_LI _ _ _ _ _ _ _ H) as [_ Hh]. rewrite map_app in Hh. cbn [map fst] in Hh. rewrite map_app in Hh. cbn [map fst] in Hh.
  apply (library_of _ _ _ _ _ _ _ H); [|exact O|].
  - rewrite app_comm_cons, app_assoc in Hh. remember ((map fst pre ++ EvStart c ord :: map fst run) ++ [EvEnd w]) as l eqn:El.
    destruct Hh as [|evs' h' st' ev st2 _ _ S]; [destruct (map fst pre); discriminate|].
    apply app_inj_tail in El as [_ ->]. exact (proj1 (proj2 (step_end _ _ _ _ S))).
  - refine (proj2 (proj2 (forward_current e d0 _ c ord _ w h st T Hh _ O))). intros f t K. apply in_map_iff in K as ([ev lo'] & E & K). cbn [fst] in E. subst ev. exact (N f t lo' K).
Qed.

Lemma only_links e st lib ev lo st' lib' :
  lstep e st lib ev lo = Some (st', lib') -> ev <> EvDelTgt -> (forall r, ev = EvLinkExec r -> r = XNotRun) -> lib' = lib.
Proof.
  intros S D R. unfold lstep in S. destruct (step e st ev) as [s1|]; [|discriminate].
  destruct ev; try (injection S as _ <-; reflexivity); try congruence.
  rewrite (R _ eq_refl) in S. destruct (link_command _ _ _) as [cmd| |]; [|discriminate|discriminate].
  unfold run_res in S. destruct (String.eqb cmd ""); injection S as _ <-; reflexivity.
Qed.
