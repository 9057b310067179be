(** C117: a run of a generator comes to an end, and succeeds if nothing goes wrong. *)
From Verif Require Import Prelude Proof_Prelude Model_Json Model_Schema Spec_Json Model_Command Model_Target Spec_Target Model_Gen
  Spec_Gen Spec_GenLive Proof_GenLive Proof_GenCase Model_FileGen.

(** Whatever happened before: a generate task that has not finished can go on,
    without anything going wrong in the step. *)
Theorem C117_never_stuck : forall rg bd u8 m0 evs h st,
  lawful bd -> ghistory rg bd u8 m0 evs h st -> g_pc st <> GIdle ->
  exists ev st', gown ev /\ ggood (g_cfg st) ev /\ gstep u8 st ev = Some st'.
Proof. exact gen_never_stuck. Qed.
Print Assumptions C117_never_stuck.

(** It takes at most two steps for each id, and two more. *)
Theorem C117_bounded : forall rg bd u8 m0 pre o run h st,
  lawful bd -> ghistory rg bd u8 m0 (pre ++ GStart o :: run) h st -> (forall o', ~ In (GStart o') run) ->
  length (filter gownb run) <= 2 + 2 * length (go_ids o).
Proof.
  intros rg bd u8 m0 pre o run h st L H N.
  exact (Nat.le_trans _ _ _ (Nat.le_add_r _ _) (gen_bounded rg bd u8 m0 pre o run h st L H N)).
Qed.
Print Assumptions C117_bounded.

(** So it can always be completed. *)
Theorem C117_completes : forall rg bd u8 m0 evs h st,
  lawful bd -> ghistory rg bd u8 m0 evs h st ->
  exists more st', Forall (fun ev => gown ev /\ ggood (g_cfg st) ev) more /\ gexec u8 st more = Some st' /\ g_pc st' = GIdle.
Proof. exact gen_completes. Qed.
Print Assumptions C117_completes.

(** If all callbacks succeed, the state file can be written, the inputs exist (and
    are not deleted), the strings are UTF-8 and the blob handlers accept the stored
    blobs and their own data, the run succeeds - from every state. *)
Theorem C117_succeeds : forall u8 st0 o run st,
  gexec u8 st0 (GStart o :: run) = Some st -> Forall (ggood o) run ->
  inputs_there (gd_mt (g_disk st0)) o -> accepts_own o -> accepts_stored (gstored u8 (g_disk st0)) o -> gstorable o ->
  g_ok st = true.
Proof. intros u8 st0 o run st X G A B C D. exact (proj1 (good_run_ok u8 st0 o run st X G A B C D)). Qed.
Print Assumptions C117_succeeds.

(** Conversely, a successful run means that all inputs exist, whether or not the
    callbacks had to be invoked ... *)
Theorem C117_inputs_needed : forall rg bd u8 m0 evs w h st,
  lawful bd -> ghistory rg bd u8 m0 (evs ++ [GFinish w]) h st -> g_ok st = true ->
  forall id g f, In (id, g) (go_ids (g_cfg st)) -> In f (inputs_of g) -> gd_mt (g_disk st) f <> None.
Proof. exact success_inputs. Qed.
Print Assumptions C117_inputs_needed.

(** ... and a run in which a callback is invoked fails in the end if some id, input
    or output is not UTF-8, even if all callbacks succeed. *)
Theorem C117_utf8_needed : forall rg bd u8 m0 pre o a id ok wr b w h st,
  lawful bd -> ghistory rg bd u8 m0 ((pre ++ GStart o :: a ++ GCall id ok wr :: b) ++ [GFinish w]) h st ->
  (forall o', ~ In (GStart o') (a ++ GCall id ok wr :: b)) ->
  ~ Forall valid_utf8 (flat_map id_texts (go_ids o)) -> g_ok st = false.
Proof. exact not_utf8_fails. Qed.
Print Assumptions C117_utf8_needed.

(** After a run that failed and one that repaired it, and an edit: the run of the
    history C39 is about goes well. It has five of the at most six steps. *)
Example C117_case : exists h st0 st, ghistory Quiet no_blobs u80 files1 gbusy h st0 /\ lawful no_blobs /\
  gexec u80 st0 (gbusy_end ++ [GFinish WOk]) = Some st /\
  gbusy_end ++ [GFinish WOk] = GStart o1 :: [GSetup; GEnter "A"; GEnter "B"; GCall "B" true [("/p/c.txt", Some 4%N)]; GFinish WOk] /\
  Forall (ggood o1) [GSetup; GEnter "A"; GEnter "B"; GCall "B" true [("/p/c.txt", Some 4%N)]; GFinish WOk] /\
  inputs_there (gd_mt (g_disk st0)) o1 /\ accepts_own o1 /\ accepts_stored (gstored u80 (g_disk st0)) o1 /\ gstorable o1 /\ g_ok st = true.
Proof.
  destruct (gfollow_case Quiet no_blobs u80 files1 gbusy (fun _ st0 =>
    forallb (fun x => forallb (fun f => match gd_mt (g_disk st0) f with Some _ => true | None => false end) (inputs_of (snd x))) (go_ids o1) &&
    match gexec u80 st0 (gbusy_end ++ [GFinish WOk]) with Some st => g_ok st | None => false end)) as (h & st0 & H & P).
  { apply gbusy_starts. vm_compute. reflexivity. }
  { vm_compute. reflexivity. }
  apply andb_true_iff in P as [P1 P2]. destruct (gexec u80 st0 (gbusy_end ++ [GFinish WOk])) as [st|] eqn:X; [|discriminate].
  exists h, st0, st. split; [exact H|]. split; [exact no_blobs_lawful|]. split; [exact X|]. split; [reflexivity|].
  split; [do 5 (constructor; [first [exact Logic.I | split; [reflexivity|intros f t [K|[]]; apply pair_equal_spec in K as [_ <-]; left; discriminate]]|]); constructor|].
  split; [apply inputs_thereb; exact P1|]. split; [intros id g hh [K|[K|[]]] E; apply pair_equal_spec in K as [_ <-]; discriminate|].
  split; [intros t id i g hh _ _ [K|[K|[]]] E; apply pair_equal_spec in K as [_ <-]; discriminate|].
  split; [apply gstorableb; vm_compute; reflexivity|exact P2].
Qed.

(** With blobs: the commands of a FileGenerator are stored and compared. *)
Example C117_case_blobs : exists st0 st, gexec u80 (ginit files1) (gfile1 ++ [GFinish WOk]) = Some st0 /\
  gstored u80 (g_disk st0) <> None /\
  gexec u80 st0 (GStart (fprog cmds2) :: [GSetup; GEnter "Generate"; GCall "Generate" true [("/p/_b/g/b.txt", Some 2%N)]; GFinish WOk]) = Some st /\
  inputs_there (gd_mt (g_disk st0)) (fprog cmds2) /\ accepts_own (fprog cmds2) /\
  accepts_stored (gstored u80 (g_disk st0)) (fprog cmds2) /\ gstorable (fprog cmds2).
Proof.
  destruct (gexec_case u80 (ginit files1) (gfile1 ++ [GFinish WOk]) (fun st0 =>
    forallb (fun x => forallb (fun f => match gd_mt (g_disk st0) f with Some _ => true | None => false end) (inputs_of (snd x))) (go_ids (fprog cmds2)) &&
    match gexec u80 st0 (gfile2 ++ [GFinish WOk]) with Some st => g_ok st | None => false end &&
    match gstored u80 (g_disk st0) with
    | Some s => forallb (fun x => match gi_handler (snd x), assoc (fst x) (gs_ids s) with
                  | Some h, Some i => bh_verify h (ii_blob i) && match bh_equal h (ii_blob i) (bh_data h) with Some _ => true | None => false end
                  | Some _, None => true | None, _ => true end) (go_ids (fprog cmds2))
    | None => false end)) as (st0 & X & P).
  { vm_compute. reflexivity. }
  apply andb_true_iff in P as [P P3]. apply andb_true_iff in P as [P1 P2].
  change (gfile2 ++ [GFinish WOk]) with (GStart (fprog cmds2) :: [GSetup; GEnter "Generate"; GCall "Generate" true [("/p/_b/g/b.txt", Some 2%N)]; GFinish WOk]) in P2.
  destruct (gexec u80 st0 (GStart (fprog cmds2) :: _)) as [st|] eqn:Y; [|discriminate]. destruct (gstored u80 (g_disk st0)) as [s|] eqn:Z; [|discriminate].
  exists st0, st. split; [exact X|]. split; [congruence|]. split; [exact Y|]. split; [apply inputs_thereb; exact P1|]. split.
  { assert (K : forallb (fun x => match gi_handler (snd x) with Some h => bh_verify h (bh_data h) | None => true end) (go_ids (fprog cmds2)) = true)
      by (vm_compute; reflexivity).
    intros id g h I E. rewrite forallb_forall in K. specialize (K _ I). cbn [snd] in K. rewrite E in K. exact K. }
  split; [|apply gstorableb; vm_compute; reflexivity].
  intros t id i g h Zt A I E. rewrite Z in Zt. injection Zt as <-. rewrite forallb_forall in P3. specialize (P3 _ I). cbn [fst snd] in P3. rewrite E, A in P3.
  apply andb_true_iff in P3 as [Q1 Q2]. split; [exact Q1|]. intros K. rewrite K in Q2. discriminate.
Qed.

(** A run in the middle, and one that has to fail because an output has no UTF-8 name. *)
Example C117_case_running : exists h st, ghistory Quiet no_blobs u80 files1 (gbusy ++ [GStart o1; GSetup; GEnter "B"]) h st /\ g_pc st = GTasks.
Proof.
  destruct (gfollow_case Quiet no_blobs u80 files1 (gbusy ++ [GStart o1; GSetup; GEnter "B"]) (fun _ st => match g_pc st with GTasks => true | _ => false end))
    as (h & st & H & P).
  { apply gbusy_starts. vm_compute. reflexivity. }
  { vm_compute. reflexivity. }
  exists h, st. split; [exact H|]. destruct (g_pc st); try discriminate. reflexivity.
Qed.
Definition bad_name : string := "/p/" +++ String (Ascii.ascii_of_nat 255) "".
Definition oU : gobj := GO (go_args base0) [("A", GI ["/p/a.txt"] [bad_name] None)].
Example C117_case_utf8 : exists h st, ghistory Forward no_blobs u80 files1
    (([] ++ GStart oU :: [GSetup; GEnter "A"] ++ GCall "A" true [(bad_name, Some 1%N)] :: []) ++ [GFinish WOk]) h st /\
  ~ Forall valid_utf8 (flat_map id_texts (go_ids oU)) /\ g_ok st = false.
Proof.
  destruct (gfollow_case Forward no_blobs u80 files1
    (([] ++ GStart oU :: [GSetup; GEnter "A"] ++ GCall "A" true [(bad_name, Some 1%N)] :: []) ++ [GFinish WOk]) (fun _ st => negb (g_ok st)))
    as (h & st & H & P).
  { apply gbusy_starts. vm_compute. reflexivity. }
  { vm_compute. reflexivity. }
  exists h, st. split; [exact H|]. split; [|apply negb_true_iff; exact P]. intros K.
  assert (E : gen_store_text (GS "" [("A", II [] [bad_name] [])]) = None) by (vm_compute; reflexivity).
  assert (Ex : exists t, gen_store_text (GS "" [("A", II [] [bad_name] [])]) = Some t).
  { apply Proof_Schema.gen_store_text_iff. rewrite Forall_forall in K. rewrite Forall_forall. intros s I. cbn in I.
    destruct I as [<-|[<-|[<-|[]]]]; [exists []; split; [constructor|reflexivity]| |]; apply K; vm_compute; auto. }
  destruct Ex as (t & Ex). congruence.
Qed.
