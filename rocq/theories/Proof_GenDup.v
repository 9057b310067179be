(** Generators: Build() called several times. *)
From Coq Require Import Lia.
From Verif Require Import Prelude Proof_Prelude Model_Path Model_Json Model_Schema Spec_Json Proof_Dec
  Proof_Schema Model_Command Model_Target Spec_Target Proof_TargetBase Model_Gen Spec_Gen Proof_Gen Proof_GenInv
  Proof_GenMain Proof_GenRuns Model_GenDup Spec_GenDup.

Ltac gup := cbn [gu_st gu_n gu_pc gu_tasks gview gwith_chain gwith_dirty gafter
  g_disk g_pc g_cfg g_load g_dirty g_tasks g_ok g_log gd_mt gd_store gd_made gwith_disk gwith_ok
  gidle set_task glogged set_gmt set_gstore set_made gkilled] in *.

Lemma put_same {A} (f : nat -> A) i x : (fun j => if Nat.eqb j i then x else f j) i = x.
Proof. cbn beta. rewrite Nat.eqb_refl. reflexivity. Qed.

Section Dup.
Context (u8 : string -> N) (bd : discipline) (o : gobj) (d0 : gdisk).
Hypothesis L : lawful bd.
Hypothesis Fo : follows bd o.
Hypothesis Go : gobj_ok o = true.

Definition cur (d : gdisk) (id : string) (g : gid) : Prop := id_current bd (gd_mt d0) d id g.
Definition unch (id : string) (g : gid) : Prop :=
  exists prev i, assoc id (loaded_ids (gstored u8 d0)) = Some prev /\ convert (gd_mt d0) g = Some i /\
    is_changed (gi_handler g) prev i = Some false.
Definition full (d : gdisk) : Prop := sane_handlers o -> settled u8 o d.

Record Shared (st : gstate) : Prop := {
  sh_cfg : g_cfg st = o;
  sh_load : g_load st = gstored u8 d0;
  sh_mt : forall id g f, assoc id (go_ids o) = Some g -> In f (inputs_of g) -> gd_mt (g_disk st) f = gd_mt d0 f;
  sh_safe : g_ok st = true -> forall id g, assoc id (go_ids o) = Some g -> unch id g -> cur (g_disk st) id g;
  sh_store : g_ok st = true -> gd_store (g_disk st) = gd_store d0 \/
    (full (g_disk st) /\ forall id g, assoc id (go_ids o) = Some g -> cur (g_disk st) id g) }.

Definition tgood (d : gdisk) (id : string) (g : gid) (t : gtask) : Prop :=
  match t with
  | TWait => True
  | TCall i => convert (gd_mt d0) g = Some i
  | TEnd b true => cur d id g /\ (b = false -> unch id g)
  | TEnd _ false => False
  end.
Record Chain (st : gstate) (p : gpc) (ts : list (string * gtask)) : Prop := {
  ch_keys : map fst ts = match p with GTasks => map fst (go_ids o) | _ => [] end;
  ch_task : g_ok st = true -> forall id g t, assoc id (go_ids o) = Some g -> assoc id ts = Some t -> tgood (g_disk st) id g t;
  ch_dirty : p = GTasks -> compute_build (gstored u8 d0) o = true -> g_dirty st = true;
  ch_done : p = GIdle -> g_ok st = true ->
    (forall id g, assoc id (go_ids o) = Some g -> cur (g_disk st) id g) /\ full (g_disk st) }.

(** What one generate task does never harms another. *)
Record Ext (st st' : gstate) : Prop := {
  ex_ok : g_ok st' = true -> g_ok st = true;
  ex_cur : g_ok st' = true -> forall id g, assoc id (go_ids o) = Some g -> cur (g_disk st) id g -> cur (g_disk st') id g;
  ex_full : g_ok st' = true -> full (g_disk st) -> full (g_disk st');
  ex_dirty : (compute_build (gstored u8 d0) o = true -> g_dirty st = true) -> compute_build (gstored u8 d0) o = true -> g_dirty st' = true }.

Lemma Chain_ext st st' p ts : Ext st st' -> Chain st p ts -> Chain st' p ts.
Proof using.
  intros [A B C D] [K1 K2 K3 K4]. constructor.
  - exact K1.
  - intros O id g t G T. specialize (K2 (A O) id g t G T). destruct t as [|i|b []]; auto. destruct K2 as (X & Y).
    split; [exact (B O id g G X)|exact Y].
  - intros P. exact (D (K3 P)).
  - intros P O. destruct (K4 P (A O)) as (X & Y). split; [|exact (C O Y)]. intros id g G. exact (B O id g G (X id g G)).
Qed.

Lemma conv st g id : Shared st -> assoc id (go_ids o) = Some g -> convert (gd_mt (g_disk st)) g = convert (gd_mt d0) g.
Proof using. intros S G. apply convert_cong. intros f Hf. exact (sh_mt _ S id g f G Hf). Qed.

Lemma full_cong d d' : gd_store d' = gd_store d ->
  (forall id g f, assoc id (go_ids o) = Some g -> In f (inputs_of g) -> gd_mt d' f = gd_mt d f) -> full d -> full d'.
Proof using.
  intros E M F SH. destruct (F SH) as (s & S1 & S2 & S3). exists s. unfold gstored in *. rewrite E. split; [exact S1|].
  split; [exact S2|]. intros id g G. destruct (S3 id g G) as (i & c & A & B & C). exists i, c. split; [exact A|].
  split; [|exact C]. rewrite (convert_cong (gd_mt d)); [exact B|]. intros f Hf. exact (M id g f G Hf).
Qed.

(** ** One step of one generate task *)
Definition finished (st : gstate) (ev : gevent) (st' : gstate) : gstate := gwith_dirty st' (gdirty_after st st' ev).
Definition Result (st : gstate) (ev : gevent) (st' : gstate) : Prop :=
  Shared (finished st ev st') /\ Chain (finished st ev st') (g_pc st') (g_tasks st') /\ Ext st (finished st ev st').

Lemma refl_ext st b : (compute_build (gstored u8 d0) o = true -> g_dirty st = true -> b = true) -> Ext st (gwith_dirty st b).
Proof using. intros H. constructor; gup; auto. Qed.
Lemma ok_ext st st' : g_ok st' = false -> (g_dirty st = true -> g_dirty st' = true) -> Ext st st'.
Proof using. intros E H. constructor; try congruence. auto. Qed.
Lemma ok_shared st st' : Shared st -> g_ok st' = false -> g_cfg st' = g_cfg st -> g_load st' = g_load st ->
  (forall id g f, assoc id (go_ids o) = Some g -> In f (inputs_of g) -> gd_mt (g_disk st') f = gd_mt (g_disk st) f) -> Shared st'.
Proof using.
  intros [A B C D E] K K1 K2 K3. constructor; try congruence. intros id g f G Hf. rewrite (K3 id g f G Hf). eauto.
Qed.
Lemma same_shared st st' : Shared st -> (g_ok st' = true -> g_ok st = true) -> g_cfg st' = g_cfg st -> g_load st' = g_load st ->
  g_disk st' = g_disk st -> Shared st'.
Proof using.
  intros [A B C D E] K K1 K2 K3. constructor; try congruence; rewrite K3; auto.
Qed.
Lemma same_ext st st' : (g_ok st' = true -> g_ok st = true) -> g_disk st' = g_disk st -> (g_dirty st = true -> g_dirty st' = true) -> Ext st st'.
Proof using. intros A B C. constructor; auto; rewrite B; auto. Qed.

(** A subtask comes to the state [t]. *)
Lemma set_chain st st' id t : Chain st GTasks (g_tasks st) -> (g_ok st' = true -> g_ok st = true) -> g_dirty st' = g_dirty st ->
  (g_ok st' = true -> forall id' g, assoc id' (go_ids o) = Some g -> cur (g_disk st) id' g -> cur (g_disk st') id' g) ->
  (g_ok st' = true -> forall g, assoc id (go_ids o) = Some g -> tgood (g_disk st') id g t) ->
  Chain st' GTasks (map (fun x => if String.eqb (fst x) id then (id, t) else x) (g_tasks st)).
Proof using.
  intros [K1 K2 K3 K4] O D C T. constructor.
  - rewrite keys_set_task. exact K1.
  - intros Ok id' g t' G A. rewrite assoc_set_task in A. destruct (String.eqb id' id) eqn:E.
    + apply String.eqb_eq in E as ->. destruct (assoc id (g_tasks st)); [|discriminate]. injection A as <-. exact (T Ok g G).
    + specialize (K2 (O Ok) id' g t' G A). destruct t' as [|i|b []]; auto. destruct K2 as (X & Y). split; [exact (C Ok id' g G X)|exact Y].
  - rewrite D. exact K3.
  - discriminate.
Qed.

Lemma gidle_chain st : g_ok st = false -> Chain st GIdle [].
Proof using. intros E. constructor; try discriminate; try reflexivity; try congruence. Qed.

Lemma all_good st : Shared st -> Chain st GTasks (g_tasks st) -> g_ok st = true ->
  forallb (fun x => ended (snd x)) (g_tasks st) = true ->
  forall id g, assoc id (go_ids o) = Some g -> exists b, assoc id (g_tasks st) = Some (TEnd b true) /\ cur (g_disk st) id g /\ (b = false -> unch id g).
Proof using.
  intros S [K1 K2 K3 K4] O F id g G.
  assert (X : exists t, assoc id (g_tasks st) = Some t) by (apply assoc_key; rewrite K1; apply assoc_key; eauto).
  destruct X as (t & X). rewrite forallb_forall in F. pose proof (F _ (assoc_In _ _ _ X)) as E. cbn [snd] in E.
  specialize (K2 O id g t G X). destruct t as [|i|b []]; try discriminate; [|destruct K2]. exists b. split; [exact X|exact K2].
Qed.

Lemma one_step st ev st' : gen_step o ev -> gstep u8 st ev = Some st' -> Shared st -> Chain st (g_pc st) (g_tasks st) -> Result st ev st'.
Proof using L Fo Go.
  intros W H S C. unfold Result, finished.
  assert (Sc := sh_cfg _ S). assert (Sl := sh_load _ S).
  destruct ev as [f t| | | |o'| |id|id ok w|w|n]; cbn [gen_step subtask] in W; try contradiction; cbn [gstep] in H.
  - injection H as <-. cbn [gdirty_after]. gup.
    split; [apply (ok_shared st); auto|]. split; [|apply ok_ext; auto].
    apply (Chain_ext st); [apply ok_ext; gup; auto|exact C].
  - (* setup *)
    destruct (g_pc st) eqn:P; try discriminate. injection H as <-. cbn [gdirty_after]. unfold gsetup.
    destruct (g_ok st) eqn:O; cbn [negb]; gup.
    + split; [apply (same_shared st); gup; auto|]. split.
      * constructor; gup; try discriminate.
        -- rewrite map_map, Sc. reflexivity.
        -- intros _ id g t _ A. apply assoc_In in A. apply in_map_iff in A as (y & Y & _). injection Y as _ <-. exact Logic.I.
        -- intros _ B. rewrite Sl, Sc. exact B.
      * constructor; gup; auto. intros _ B. rewrite Sl, Sc. exact B.
    + split; [apply (ok_shared st); gup; auto|]. split; [|apply ok_ext; gup; auto]. apply gidle_chain. exact O.
  - (* a subtask up to the callback *)
    destruct (g_pc st) eqn:P; try discriminate. destruct (assoc id (g_tasks st)) as [[]|] eqn:T; try discriminate.
    destruct (assoc id (go_ids (g_cfg st))) as [g|] eqn:G; [|discriminate]. injection H as <-. cbn [gdirty_after].
    rewrite Sc in G.
    assert (K : forall t b, (b = true -> g_ok st = true) -> (b = true -> tgood (g_disk st) id g t) ->
      Shared (gwith_ok (set_task st id t) b) /\ Chain (gwith_ok (set_task st id t) b) GTasks (map (fun x => if String.eqb (fst x) id then (id, t) else x) (g_tasks st)) /\ Ext st (gwith_ok (set_task st id t) b)).
    { intros t b Hb Ht. split; [apply (same_shared st); gup; auto|]. split; [|apply same_ext; gup; auto].
      apply (set_chain st); gup; auto. intros Hb' g' G'. assert (g' = g) as -> by congruence. exact (Ht Hb'). }
    assert (R : forall t b, (b = true -> g_ok st = true) -> (b = true -> tgood (g_disk st) id g t) ->
      Shared (gwith_dirty (gwith_ok (set_task st id t) b) (g_dirty (gwith_ok (set_task st id t) b))) /\
      Chain (gwith_dirty (gwith_ok (set_task st id t) b) (g_dirty (gwith_ok (set_task st id t) b))) (g_pc (gwith_ok (set_task st id t) b)) (g_tasks (gwith_ok (set_task st id t) b)) /\
      Ext st (gwith_dirty (gwith_ok (set_task st id t) b) (g_dirty (gwith_ok (set_task st id t) b)))).
    { intros t b Hb Ht. destruct (K t b Hb Ht) as (A & B & D). gup. rewrite P. auto. }
    assert (Same : forall t, set_task st id t = gwith_ok (set_task st id t) (g_ok st)) by (intros t; reflexivity).
    unfold genter. destruct (g_ok st) eqn:O; cbn [negb].
    2:{ rewrite Same. apply R; congruence. }
    rewrite (conv st g id S G). destruct (convert (gd_mt d0) g) as [i|] eqn:Cv; [|apply R; congruence].
    rewrite Sl. destruct (assoc id (loaded_ids (gstored u8 d0))) as [prev|] eqn:A.
    + destruct (is_changed (gi_handler g) prev i) as [[]|] eqn:Ch.
      * rewrite Same. apply R; auto. 
      * assert (U : unch id g) by (exists prev, i; auto).
        rewrite Same. apply R; auto. intros _. cbn [tgood]. split; [|auto]. exact (sh_safe _ S O id g G U).
      * apply R; congruence.
    + rewrite Same. apply R; auto.
  - (* a callback *)
    destruct (g_pc st) eqn:P; try discriminate. destruct (assoc id (g_tasks st)) as [[|i|]|] eqn:T; try discriminate.
    injection H as <-. cbn [gdirty_after]. unfold gcallback.
    assert (Mt : forall id' g f, assoc id' (go_ids o) = Some g -> In f (inputs_of g) -> write_all (gd_mt (g_disk st)) w f = gd_mt (g_disk st) f).
    { intros id' g f G Hf. apply write_all_same. intros t Ht. exact (W f t id' g Ht (assoc_In _ _ _ G) Hf). }
    destruct ok; gup.
    + set (a := GA _ _ _ _ _).
      assert (New : g_ok st = true -> forall g, assoc id (go_ids o) = Some g ->
        cur (GD (write_all (gd_mt (g_disk st)) w) (gd_store (g_disk st)) (upd (gd_made (g_disk st)) id (Some a))) id g).
      { intros O g G. assert (Cv : convert (gd_mt d0) g = Some i) by exact (ch_task _ _ _ C O id g (TCall i) G T).
        destruct (convert_spec _ _ _ Cv) as (C1 & C2 & C3 & _). exists a. cbn [gd_made]. unfold upd. rewrite String.eqb_refl.
        split; [reflexivity|]. subst a. cbn [ga_inputs ga_outputs ga_blob ga_snap]. split; [exact (Hashed_paths _ _ _ C1)|].
        split; [exact C2|]. split.
        - apply (blobrel_current bd _ id g _ Fo (assoc_In _ _ _ G)). rewrite C3. exact (blobrel_self bd _ id g L Fo (assoc_In _ _ _ G)).
        - intros f Hf. exact (sh_mt _ S id g f G Hf). }
      assert (Old : g_ok st = true -> forall id' g, assoc id' (go_ids o) = Some g -> cur (g_disk st) id' g ->
        cur (GD (write_all (gd_mt (g_disk st)) w) (gd_store (g_disk st)) (upd (gd_made (g_disk st)) id (Some a))) id' g).
      { intros O id' g G X. destruct (String.eqb id' id) eqn:E.
        - apply String.eqb_eq in E as ->. exact (New O g G).
        - destruct X as (b & X1 & X2). exists b. cbn [gd_made]. unfold upd. rewrite E. auto. }
      assert (Fl : full (g_disk st) -> full (GD (write_all (gd_mt (g_disk st)) w) (gd_store (g_disk st)) (upd (gd_made (g_disk st)) id (Some a)))).
      { apply full_cong; [reflexivity|exact Mt]. }
      split; [|split].
      * destruct S as [S1 S2 S3 S4 S5]. constructor; gup; auto.
        -- intros id' g f G Hf. rewrite (Mt id' g f G Hf). eauto.
        -- intros O. destruct (S5 O) as [X|(X & Y)]; auto.
      * rewrite P. apply (set_chain st); gup; auto. intros O g G. cbn [tgood]. split; [exact (New O g G)|discriminate].
      * constructor; gup; auto.
    + split; [|split].
      * apply (ok_shared st); gup; auto.
      * rewrite P. apply (set_chain st); gup; auto; try discriminate.
      * apply ok_ext; gup; auto.
  - (* the end *)
    destruct (g_pc st) eqn:P; try discriminate. destruct (forallb _ _) eqn:F; [|discriminate]. unfold gdirty_after.
    assert (Dm : g_dirty st = true -> gdirty st = true) by (unfold gdirty; intros ->; reflexivity).
    assert (Bad : forall dd b k, k = false -> gd_mt dd = gd_mt (g_disk st) ->
      Shared (GST dd GIdle (g_cfg st) (g_load st) b [] k (g_log st)) /\ Chain (GST dd GIdle (g_cfg st) (g_load st) b [] k (g_log st)) GIdle []).
    { intros dd b k -> E. split; [apply (ok_shared st); gup; auto; intros; rewrite E; reflexivity|apply gidle_chain; reflexivity]. }
    unfold gfinish in H. destruct (gdirty st) eqn:D.
    + destruct (final_text st) as [t|] eqn:Tx.
      * destruct w as [| |m rep]; [| |destruct W; discriminate].
        -- injection H as <-. gup.
           destruct (g_ok st) eqn:O.
           2:{ destruct (Bad (GD (gd_mt (g_disk st)) (Some t) (gd_made (g_disk st))) true (g_ok st) O eq_refl) as (B1 & B2). gup.
               split; [exact B1|]. split; [exact B2|]. apply ok_ext; gup; auto. }
           assert (All := all_good st S C O F).
           assert (Fu : full (GD (gd_mt (g_disk st)) (Some t) (gd_made (g_disk st)))).
           { intros SH. assert (Go' : gobj_ok (g_cfg st) = true) by (rewrite Sc; exact Go).
             destruct (final_text_rt u8 st t Go' Tx) as (l & L1 & L2). rewrite Sc in L1. destruct (final_ids_spec _ _ _ _ L1) as (K1 & K2 & K3 & K4).
             assert (ND : NoDup (map fst l)) by (apply K2; exact (gobj_ok_NoDup _ Go)).
             exists (GS "" l). unfold gstored. gsp. cbn [bind]. split; [exact L2|]. split.
             - apply compute_build_false. cbn [gs_ids]. intros id. split; [apply K1|]. intros I. apply assoc_key in I as (g & G).
               destruct (All id g G) as (b & B1 & _). destruct (K4 id g _ (assoc_In _ _ _ G) B1) as (i & I & _); [destruct b; reflexivity|].
               apply in_map_iff. exists (id, i). auto.
             - intros id g G. destruct (All id g G) as (b & B1 & _).
               destruct (K4 id g _ (assoc_In _ _ _ G) B1) as (i & I & Cv); [destruct b; reflexivity|].
               exists i, i. cbn [gs_ids]. split; [exact (assoc_NoDup_In _ _ _ ND I)|]. split; [exact Cv|].
               apply (convert_self _ _ _ Cv). intros hd Eh. exact (SH id g hd (assoc_In _ _ _ G) Eh). }
           split; [|split].
           ++ destruct S as [S1 S2 S3 S4 S5]. constructor; gup; auto. intros _. right. split; [exact Fu|].
              intros id g G. destruct (All id g G) as (b & _ & X & _). exact X.
           ++ constructor; gup; try discriminate; try reflexivity. intros _ _. split; [|exact Fu].
              intros id g G. destruct (All id g G) as (b & _ & X & _). exact X.
           ++ constructor; gup; auto.
        -- injection H as <-. gup. destruct (Bad (g_disk st) true false eq_refl eq_refl) as (B1 & B2).
           split; [exact B1|]. split; [exact B2|]. apply ok_ext; gup; auto.
      * destruct w as [| |m rep]; try discriminate. injection H as <-. gup. destruct (Bad (g_disk st) true false eq_refl eq_refl) as (B1 & B2).
        split; [exact B1|]. split; [exact B2|]. apply ok_ext; gup; auto.
    + destruct w as [| |m rep]; try discriminate. injection H as <-. gup. unfold gdirty in D. apply orb_false_iff in D as [D1 D2].
      split; [apply (same_shared st); gup; auto|]. split; [|apply same_ext; gup; auto].
      constructor; gup; try discriminate; try reflexivity. intros _ O. assert (All := all_good st S C O F).
      split; [intros id g G; destruct (All id g G) as (b & _ & X & _); exact X|].
      destruct (sh_store _ S O) as [E|(E & _)]; [|exact E]. intros SH.
      destruct (compute_build (gstored u8 d0) o) eqn:Cb; [rewrite (ch_dirty _ _ _ C eq_refl Cb) in D1; discriminate|].
      destruct (gstored u8 d0) as [s|] eqn:Es; [|discriminate]. exists s. split; [unfold gstored in *; rewrite E; exact Es|].
      split; [exact Cb|]. intros id g G. destruct (All id g G) as ([] & B1 & _ & U).
      * exfalso. assert (K : existsb (fun x => should (snd x)) (g_tasks st) = true); [|congruence].
        apply existsb_exists. exists (id, TEnd true true). split; [exact (assoc_In _ _ _ B1)|reflexivity].
      * destruct (U eq_refl) as (prev & i & U1 & U2 & U3). rewrite Es in U1. exists prev, i. split; [exact U1|].
        split; [rewrite (conv st g id S G); exact U2|exact U3].
Qed.

(** ** All generate tasks *)
Definition Inv (s : gdup) : Prop := Shared (gu_st s) /\ forall i, i < gu_n s -> Chain (gu_st s) (gu_pc s i) (gu_tasks s i).

Lemma shared_chain st p ts : Shared st -> Shared (gwith_chain st p ts).
Proof using. intros [A B C D E]. constructor; auto. Qed.
Lemma chain_view st p ts p' ts' : Chain st p' ts' -> Chain (gwith_chain st p ts) p' ts'.
Proof using. intros [A B C D]. constructor; auto. Qed.

Lemma Inv_step s x s' : gen_task o x -> (forall i, gu_n s <= i -> gu_pc s i = GIdle) -> (forall i ev, x = GuTask i ev -> i < gu_n s \/ ev = GFail) ->
  Inv s -> gu_step u8 s x = Some s' -> Inv s' /\ gu_n s' = gu_n s.
Proof using L Fo Go.
  intros W Out Li (A & B) H. destruct x as [n o'|i ev]; [destruct W|]. cbn [gen_task] in W. cbn [gu_step] in H.
  destruct (gstep u8 (gview s i) ev) as [st|] eqn:E; [|discriminate].
  destruct (Li i ev eq_refl) as [Hi| ->].
  - assert (R := one_step _ _ _ W E (shared_chain _ _ _ A) (chain_view _ _ _ _ _ (B i Hi))). destruct R as (R1 & R2 & R3).
    assert (K : Some (GDU (finished (gview s i) ev st) (gu_n s) (fun j => if Nat.eqb j i then g_pc st else gu_pc s j)
                           (fun j => if Nat.eqb j i then g_tasks st else gu_tasks s j)) = Some s').
    { destruct ev; try exact H; destruct W. }
    injection K as <-. split; [|reflexivity]. split; gup; [exact R1|]. intros j Hj. destruct (Nat.eqb j i); [exact R2|].
    apply (Chain_ext (gview s i)); [exact R3|]. apply chain_view. exact (B j Hj).
  - cbn [gstep gview] in E. injection E as <-. injection H as <-. split; [|reflexivity]. split; gup.
    + apply (ok_shared (gu_st s)); gup; auto.
    + intros j Hj. specialize (B j Hj). destruct (Nat.eqb_spec j i) as [->|]; (apply (Chain_ext (gu_st s)); [apply ok_ext; gup; auto|exact B]).
Qed.
End Dup.

(** ** From the start *)
Definition Bound (s : gdup) : Prop := forall i, gu_n s <= i -> gu_pc s i = GIdle /\ gu_tasks s i = [].
Lemma bound_step u8 o s x s' : gen_task o x -> Bound s -> gu_step u8 s x = Some s' ->
  Bound s' /\ gu_n s' = gu_n s /\ forall i ev, x = GuTask i ev -> i < gu_n s \/ ev = GFail.
Proof.
  intros W B H. destruct x as [n o'|i ev]; [destruct W|]. cbn [gen_task] in W. cbn [gu_step] in H.
  destruct (gstep u8 (gview s i) ev) as [st|] eqn:E; [|discriminate].
  assert (K : i < gu_n s \/ ev = GFail).
  { destruct (Nat.lt_ge_cases i (gu_n s)) as [|Hi]; [auto|]. right. destruct (B i Hi) as (B1 & _). unfold gview in E. rewrite B1 in E.
    destruct ev; cbn [gen_step subtask] in W; try contradiction; auto; discriminate E. }
  assert (K2 : Some (GDU (gwith_dirty st (gdirty_after (gview s i) st ev)) (gu_n s) (fun j => if Nat.eqb j i then g_pc st else gu_pc s j)
                           (fun j => if Nat.eqb j i then g_tasks st else gu_tasks s j)) = Some s').
  { destruct ev; try exact H; destruct W. }
  injection K2 as <-. split; [|split; [reflexivity|]].
  - intros j Hj. gup. destruct (Nat.eqb_spec j i) as [->|]; [|exact (B j Hj)].
    destruct K as [K| ->]; [lia|]. cbn [gstep] in E. injection E as <-. exact (B i Hj).
  - intros i' ev' [= <- <-]. exact K.
Qed.

Lemma exec_inv u8 bd o d0 l : lawful bd -> follows bd o -> gobj_ok o = true ->
  forall s s', Forall (gen_task o) l -> Bound s -> Inv u8 bd o d0 s -> gu_exec u8 s l = Some s' -> Inv u8 bd o d0 s' /\ gu_n s' = gu_n s /\ Bound s'.
Proof.
  intros L Fo Go. induction l as [|x l IH]; intros s s' F B V H; cbn [gu_exec] in H.
  - injection H as <-. auto.
  - apply Forall_cons_iff in F as [F1 F2]. destruct (gu_step u8 s x) as [s1|] eqn:E; [|discriminate].
    destruct (bound_step _ _ _ _ _ F1 B E) as (B1 & N1 & Li).
    destruct (Inv_step u8 bd o d0 L Fo Go s x s1 F1 (fun i Hi => proj1 (B i Hi)) Li V E) as (V1 & _).
    destruct (IH s1 s' F2 B1 V1 H) as (A & N2 & C). split; [exact A|]. split; [congruence|exact C].
Qed.

Lemma start_facts rg bd u8 m0 evs h st o n s :
  lawful bd -> ghistory rg bd u8 m0 evs h st -> g_pc st = GIdle -> follows bd o -> (forall c, gh_taint h = Some c -> o = c) ->
  gu_step u8 (gu_begin st) (GuStart n o) = Some s ->
  gobj_ok o = true /\ gu_n s = n /\ Bound s /\ g_log (gu_st s) = g_log st /\ Inv u8 bd o (g_disk st) s.
Proof.
  intros L H P Fo Tn E. cbn [gu_step] in E. change (gall_idle (gu_begin st)) with true in E. cbv iota in E.
  unfold gstart in E. destruct (gobj_ok o) eqn:Go; [|discriminate]. injection E as <-. gup.
  split; [reflexivity|]. split; [reflexivity|]. split.
  { intros i Hi. gup. destruct (Nat.ltb_spec i n); [lia|auto]. }
  split; [reflexivity|]. split.
  - constructor; gup; auto. intros _ id g G (prev & i & A & Cv & Ch).
    assert (V := history_inv _ _ _ _ _ _ _ L H).
    assert (Gs : gstart u8 st o = Some (GST (g_disk st) GBuilt o (gstored u8 (g_disk st)) false [] true (g_log st))) by (unfold gstart; rewrite Go; reflexivity).
    assert (V1 := start_inv _ _ _ _ _ _ _ V P Fo Tn Gs). assert (V2 := setup_inv _ _ _ _ _ V1 eq_refl).
    exact (enter_current rg bd u8 h _ id g prev i L V2 eq_refl G Cv A Ch).
  - intros i Hi. gup. destruct (Nat.ltb_spec i n); [|lia]. constructor; try discriminate; reflexivity.
Qed.

(** The process is killed; another one follows. *)
Lemma again_facts u8 bd o d0 s m s1 s2 :
  lawful bd -> follows bd o -> gobj_ok o = true -> Inv u8 bd o d0 s -> g_ok (gu_st s) = true -> g_disk (gu_st s1) = g_disk (gu_st s) ->
  gu_step u8 s1 (GuStart m o) = Some s2 -> gu_n s2 = m /\ Bound s2 /\ Inv u8 bd o (g_disk (gu_st s)) s2.
Proof.
  intros L Fo Go (V & _) O Ed E. cbn [gu_step] in E. destruct (gall_idle s1); [|discriminate]. unfold gstart in E. rewrite Go in E.
  injection E as <-. gup. split; [reflexivity|]. split.
  { intros i Hi. gup. destruct (Nat.ltb_spec i m); [lia|auto]. }
  split.
  - constructor; gup; rewrite ?Ed; auto. intros _ id g G U.
    assert (C : cur bd d0 (g_disk (gu_st s)) id g).
    { destruct (sh_store _ _ _ _ _ V O) as [K|(_ & K)]; [|exact (K id g G)]. apply (sh_safe _ _ _ _ _ V O id g G).
      destruct U as (prev & i & A & B & Ch). exists prev, i. unfold gstored in *. rewrite K in A. split; [exact A|]. split; [|exact Ch].
      rewrite <- (conv u8 bd o d0 (gu_st s) g id V G). exact B. }
    destruct C as (a & A1 & A2 & A3 & A4 & A5). exists a. repeat split; auto. intros f Hf. rewrite (A5 f Hf). symmetry.
    exact (sh_mt _ _ _ _ _ V id g f G Hf).
  - intros i Hi. gup. destruct (Nat.ltb_spec i m); [|lia]. constructor; try discriminate; reflexivity.
Qed.

Lemma settled_idle_run u8 o st ids :
  settled u8 o (g_disk st) -> gobj_ok o = true -> g_pc st = GIdle -> Permutation ids (map fst (go_ids o)) ->
  exists st2, gexec u8 st (gidle_run o ids) = Some st2 /\ g_ok st2 = true /\ g_log st2 = g_log st /\ g_disk st2 = g_disk st.
Proof.
  intros S Go P' Pm. assert (ND := gobj_ok_NoDup _ Go).
  unfold gidle_run. cbn [gexec gstep]. rewrite P'. unfold gstart. rewrite Go. cbn [g_pc]. unfold gsetup. gsp. cbn [negb].
  set (st1 := GST _ GTasks _ _ _ _ _ _).
  assert (N1 : NoDup ids) by (apply (Permutation_NoDup (Permutation_sym Pm)); exact ND).
  assert (Wt : forall id t, assoc id (g_tasks st1) = Some t -> t = TWait).
  { intros id t X. apply assoc_In in X. subst st1. gsp. apply in_map_iff in X as (y & Y & _). injection Y as _ <-. reflexivity. }
  assert (Ks : map fst (g_tasks st1) = map fst (go_ids o)) by (subst st1; gsp; rewrite map_map; reflexivity).
  destruct (idle_enters u8 o ids st1) as (st2 & Y1 & Y2 & Y3 & Y4 & Y5 & Y6 & Y7 & Y8); try reflexivity; auto.
  - intros id I. assert (X : exists t, assoc id (g_tasks st1) = Some t).
    { apply assoc_key. rewrite Ks. apply (Permutation_in _ Pm). exact I. }
    destruct X as (t & X). rewrite X. f_equal. exact (Wt id t X).
  - intros id I. apply (Permutation_in _ Pm). exact I.
  - intros id t X NIn. exfalso. apply NIn. apply (Permutation_in _ (Permutation_sym Pm)). rewrite <- Ks. apply assoc_key. eauto.
  - rewrite gexec_app, Y1. cbn [gexec gstep]. rewrite Y5.
    assert (C2 : forall x, In x (g_tasks st2) -> snd x = TEnd false true).
    { intros [k t] X. cbn [snd]. apply (Y8 k t). apply assoc_NoDup_In; [rewrite Y7, Ks; exact ND|exact X]. }
    assert (En : forallb (fun x => ended (snd x)) (g_tasks st2) = true).
    { apply forallb_forall. intros x X. rewrite (C2 x X). reflexivity. }
    assert (Dn : gdirty st2 = false).
    { unfold gdirty. rewrite Y6. destruct S as (s & S1 & S2 & _). subst st1. gsp. rewrite S1. rewrite S2. cbn [orb].
      destruct (existsb _ _) eqn:X; [|reflexivity]. apply existsb_exists in X as (x & X1 & X2). rewrite (C2 x X1) in X2. discriminate. }
    rewrite En. unfold gfinish. rewrite Dn. exists (gidle st2). split; [reflexivity|]. gsp. auto.
Qed.

Lemma several_generates rg bd u8 m0 evs h st o n l s :
  lawful bd -> ghistory rg bd u8 m0 evs h st -> g_pc st = GIdle -> follows bd o -> (forall c, gh_taint h = Some c -> o = c) ->
  n <> 0 -> Forall (gen_task o) l ->
  gu_exec u8 (gu_begin st) (GuStart n o :: l) = Some s -> gall_ended s -> g_ok (gu_st s) = true ->
  (forall id g, In (id, g) (go_ids o) -> id_current bd (gd_mt (g_disk (gu_st s))) (g_disk (gu_st s)) id g) /\
  (sane_handlers o -> forall ids, Permutation ids (map fst (go_ids o)) ->
     exists st2, gexec u8 (gafter s) (gidle_run o ids) = Some st2 /\ g_ok st2 = true /\
       g_log st2 = g_log (gu_st s) /\ g_disk st2 = g_disk (gu_st s)).
Proof.
  intros L H P Fo Tn N F X E O. cbn [gu_exec] in X. destruct (gu_step u8 (gu_begin st) (GuStart n o)) as [s0|] eqn:S0; [|discriminate].
  destruct (start_facts _ _ _ _ _ _ _ _ _ _ L H P Fo Tn S0) as (Go & Nn & B & _ & V).
  destruct (exec_inv _ _ _ _ _ L Fo Go _ _ F B V X) as ((V1 & V2) & Nn' & _).
  assert (C := V2 0 ltac:(lia)). rewrite (E 0) in C. destruct (ch_done _ _ _ _ _ _ _ C eq_refl O) as (D1 & D2). split.
  - intros id g I. assert (G := assoc_NoDup_In _ _ _ (gobj_ok_NoDup _ Go) I). destruct (D1 id g G) as (a & A1 & A2 & A3 & A4 & A5).
    exists a. repeat split; auto. intros f Hf. rewrite (A5 f Hf). symmetry. exact (sh_mt _ _ _ _ _ V1 id g f G Hf).
  - intros SH ids Pm. exact (settled_idle_run u8 o (gafter s) ids (D2 SH) Go eq_refl Pm).
Qed.

Lemma killed_generates rg bd u8 m0 evs h st o n l s i s1 m l2 s2 :
  lawful bd -> ghistory rg bd u8 m0 evs h st -> g_pc st = GIdle -> follows bd o -> (forall c, gh_taint h = Some c -> o = c) ->
  Forall (gen_task o) l -> gu_exec u8 (gu_begin st) (GuStart n o :: l) = Some s -> g_ok (gu_st s) = true ->
  gu_step u8 s (GuTask i GCrash) = Some s1 ->
  m <> 0 -> Forall (gen_task o) l2 -> gu_exec u8 s1 (GuStart m o :: l2) = Some s2 -> gall_ended s2 -> g_ok (gu_st s2) = true ->
  (forall id g, In (id, g) (go_ids o) -> id_current bd (gd_mt (g_disk (gu_st s2))) (g_disk (gu_st s2)) id g) /\
  (sane_handlers o -> forall ids, Permutation ids (map fst (go_ids o)) ->
     exists st2, gexec u8 (gafter s2) (gidle_run o ids) = Some st2 /\ g_ok st2 = true /\
       g_log st2 = g_log (gu_st s2) /\ g_disk st2 = g_disk (gu_st s2)).
Proof.
  intros L H P Fo Tn F X O Cr Nm F2 X2 E2 O2. cbn [gu_exec] in X. destruct (gu_step u8 (gu_begin st) (GuStart n o)) as [s0|] eqn:S0; [|discriminate].
  destruct (start_facts _ _ _ _ _ _ _ _ _ _ L H P Fo Tn S0) as (Go & Nn & B & _ & V).
  destruct (exec_inv _ _ _ _ _ L Fo Go _ _ F B V X) as (V1 & _ & _).
  assert (Ed : g_disk (gu_st s1) = g_disk (gu_st s)).
  { cbn [gu_step gstep] in Cr. destruct (g_pc (gview s i)); try discriminate; injection Cr as <-; reflexivity. }
  cbn [gu_exec] in X2. destruct (gu_step u8 s1 (GuStart m o)) as [s3|] eqn:S3; [|discriminate].
  destruct (again_facts _ _ _ _ _ _ _ _ L Fo Go V1 O Ed S3) as (N3 & B3 & V3).
  destruct (exec_inv _ _ _ _ _ L Fo Go _ _ F2 B3 V3 X2) as ((W1 & W2) & N4 & _).
  assert (C := W2 0 ltac:(lia)). rewrite (E2 0) in C. destruct (ch_done _ _ _ _ _ _ _ C eq_refl O2) as (D1 & D2). split.
  - intros id g I. assert (G := assoc_NoDup_In _ _ _ (gobj_ok_NoDup _ Go) I). destruct (D1 id g G) as (a & A1 & A2 & A3 & A4 & A5).
    exists a. repeat split; auto. intros f Hf. rewrite (A5 f Hf). symmetry. exact (sh_mt _ _ _ _ _ W1 id g f G Hf).
  - intros SH ids Pm. exact (settled_idle_run u8 o (gafter s2) ids (D2 SH) Go eq_refl Pm).
Qed.

(** ** Nothing changed *)
Lemma rests_step u8 o s x s' : gen_task o x -> (forall i, resting u8 o (gview s i)) ->
  gu_step u8 s x = Some s' -> (forall i, resting u8 o (gview s' i)) /\ g_log (gu_st s') = g_log (gu_st s) /\
    gd_store (g_disk (gu_st s')) = gd_store (g_disk (gu_st s)) /\ gd_made (g_disk (gu_st s')) = gd_made (g_disk (gu_st s)).
Proof.
  intros W R H. destruct x as [n o'|i ev]; [destruct W|]. cbn [gen_task] in W. cbn [gu_step] in H.
  destruct (gstep u8 (gview s i) ev) as [st|] eqn:E; [|discriminate].
  assert (K2 : Some (GDU (gwith_dirty st (gdirty_after (gview s i) st ev)) (gu_n s) (fun j => if Nat.eqb j i then g_pc st else gu_pc s j)
                           (fun j => if Nat.eqb j i then g_tasks st else gu_tasks s j)) = Some s').
  { destruct ev; try exact H; destruct W. }
  assert (U : gundisturbed o ev) by (destruct ev; cbn [gen_step subtask] in W; try contradiction; exact Logic.I).
  destruct (resting_step _ _ _ _ _ (R i) U E) as (R' & A & B & C). injection K2 as <-. gup. split; [|auto].
  assert (Dz : gdirty_after (gview s i) st ev = false).
  { destruct ev; cbn [gdirty_after]; try exact (rs_dirty _ _ _ R').
    - destruct (g_ok _); [exact (rs_dirty _ _ _ R')|exact (rs_dirty _ _ _ (R i))].
    - exact (resting_gdirty _ _ _ (R i)). }
  rewrite Dz. intros j. destruct (Nat.eqb_spec j i) as [->|Ne]; destruct R' as [Q1 Q2 Q3 Q4].
  - constructor; gup; rewrite ?Nat.eqb_refl; auto.
  - apply Nat.eqb_neq in Ne. destruct (R j) as [J1 J2 J3 J4]. constructor; gup; rewrite ?Ne; auto.
    intros P. destruct (J2 P) as (X & Y). gup.
    assert (Keep : g_cfg st = g_cfg (gu_st s) /\ g_load st = g_load (gu_st s)).
    { clear - E W. destruct ev as [f t| | | |o'| |id|id ok w|w|n]; cbn [gen_step subtask] in W; try contradiction; cbn [gstep] in E.
      - injection E as <-. auto.
      - destruct (g_pc _); try discriminate. injection E as <-. unfold gsetup. destruct (negb _); gup; auto.
      - destruct (g_pc _); try discriminate. destruct (assoc id (g_tasks _)) as [[]|]; try discriminate. destruct (assoc id _) as [g|]; try discriminate.
        injection E as <-. unfold genter. destruct (negb _); gup; auto. destruct (convert _ _); gup; auto. destruct (assoc _ _); gup; auto.
        destruct (is_changed _ _ _) as [[]|]; gup; auto.
      - destruct (g_pc _); try discriminate. destruct (assoc id (g_tasks _)) as [[]|]; try discriminate. injection E as <-.
        unfold gcallback. destruct ok; gup; auto.
      - destruct (g_pc _); try discriminate. destruct (forallb _ _); [|discriminate]. unfold gfinish in E.
        destruct (gdirty _); [destruct (final_text _)|]; destruct W as [-> | ->]; try discriminate; injection E as <-; gup; auto. }
    destruct Keep as (K1 & K2). rewrite K1, K2. split; [exact X|]. rewrite Y. unfold gstored. gup. rewrite B. reflexivity.
Qed.

Lemma rest_from u8 o n l s0 s :
  settled u8 o (g_disk (gu_st s0)) -> Forall (gen_task o) l -> gu_exec u8 s0 (GuStart n o :: l) = Some s ->
  g_log (gu_st s) = g_log (gu_st s0) /\ gd_store (g_disk (gu_st s)) = gd_store (g_disk (gu_st s0)) /\
  gd_made (g_disk (gu_st s)) = gd_made (g_disk (gu_st s0)).
Proof.
  intros R F X. cbn [gu_exec gu_step] in X. destruct (gall_idle s0); [|discriminate].
  unfold gstart in X. destruct (gobj_ok o) eqn:Go; [|discriminate].
  assert (K : forall s1, (forall i, resting u8 o (gview s1 i)) -> forall s2, gu_exec u8 s1 l = Some s2 ->
    g_log (gu_st s2) = g_log (gu_st s1) /\ gd_store (g_disk (gu_st s2)) = gd_store (g_disk (gu_st s1)) /\ gd_made (g_disk (gu_st s2)) = gd_made (g_disk (gu_st s1))).
  { clear X. clear - F. induction l as [|x l IH]; intros s1 R1 s2 Y; cbn [gu_exec] in Y; [injection Y as <-; auto|].
    apply Forall_cons_iff in F as [F1 F2]. destruct (gu_step u8 s1 x) as [s3|] eqn:E; [|discriminate].
    destruct (rests_step _ _ _ _ _ F1 R1 E) as (R3 & A & B & C). destruct (IH F2 s3 R3 s2 Y) as (A' & B' & C').
    split; [congruence|]. split; congruence. }
  refine (K _ _ s X). intros i. constructor; gup; auto. constructor.
Qed.

Lemma several_rest rg bd u8 m0 evs h st n l s :
  lawful bd -> ghistory rg bd u8 m0 (evs ++ [GFinish WOk]) h st -> g_ok st = true -> sane_handlers (g_cfg st) ->
  Forall (gen_task (g_cfg st)) l -> gu_exec u8 (gu_begin st) (GuStart n (g_cfg st) :: l) = Some s ->
  g_log (gu_st s) = g_log st /\ gd_store (g_disk (gu_st s)) = gd_store (g_disk st) /\ gd_made (g_disk (gu_st s)) = gd_made (g_disk st).
Proof.
  intros L H O SH F X. assert (R := settled_after _ _ _ _ _ _ _ L H O SH). exact (rest_from u8 _ n l (gu_begin st) s R F X).
Qed.

Lemma several_then_rest rg bd u8 m0 evs h st o n l s m l2 s2 :
  lawful bd -> ghistory rg bd u8 m0 evs h st -> g_pc st = GIdle -> follows bd o -> (forall c, gh_taint h = Some c -> o = c) ->
  sane_handlers o -> n <> 0 -> Forall (gen_task o) l ->
  gu_exec u8 (gu_begin st) (GuStart n o :: l) = Some s -> gall_ended s -> g_ok (gu_st s) = true ->
  Forall (gen_task o) l2 -> gu_exec u8 s (GuStart m o :: l2) = Some s2 ->
  g_log (gu_st s2) = g_log (gu_st s) /\ gd_store (g_disk (gu_st s2)) = gd_store (g_disk (gu_st s)) /\
  gd_made (g_disk (gu_st s2)) = gd_made (g_disk (gu_st s)).
Proof.
  intros L H P Fo Tn SH N F X E O F2 X2. cbn [gu_exec] in X. destruct (gu_step u8 (gu_begin st) (GuStart n o)) as [s0|] eqn:S0; [|discriminate].
  destruct (start_facts _ _ _ _ _ _ _ _ _ _ L H P Fo Tn S0) as (Go & Nn & B & _ & V).
  destruct (exec_inv _ _ _ _ _ L Fo Go _ _ F B V X) as ((V1 & V2) & Nn' & _).
  assert (C := V2 0 ltac:(lia)). rewrite (E 0) in C. destruct (ch_done _ _ _ _ _ _ _ C eq_refl O) as (_ & D2).
  exact (rest_from u8 o m l2 s s2 (D2 SH) F2 X2).
Qed.
