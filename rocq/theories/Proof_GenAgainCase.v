(** Sessions with a generator checked by computation. *)
From Verif Require Import Prelude Proof_Prelude Model_Path Model_Json Model_Schema Model_Command Model_Target Spec_Target Model_Gen Spec_Gen
  Proof_GenCase Model_Again Model_GenAgain Spec_GenAgain.

Definition badmissibleb (rg : regime) (h : ghist) (b : bstate) (ev : bevent) : bool :=
  match ev with BOnce x => gadmissibleb rg h (b_st b) x | _ => true end.
Definition bcarefulb (b : bstate) (ev : bevent) : bool :=
  match b_phase b, ev with
  | Rep, BOnce GCrash => negb (gdirty (b_st b))
  | Rep, BOnce (GFinish w) => negb (gdirty (b_st b)) || writes_gstore (b_st b) w
  | _, _ => true
  end.
Lemma bcarefulb_sound b ev : bcarefulb b ev = true -> bcareful b ev.
Proof.
  unfold bcarefulb, bcareful. destruct (b_phase b); try exact (fun _ => Logic.I). destruct ev as [[]| |]; try exact (fun _ => Logic.I).
  - intros H. apply negb_true_iff. exact H.
  - intros H D. rewrite D in H. exact H.
Qed.
Fixpoint bfollow (rg : regime) (u8 : string -> N) (okb : bstate -> bevent -> bool) (h : ghist) (b : bstate) (evs : list bevent)
  : option (ghist * bstate) :=
  match evs with
  | [] => Some (h, b)
  | ev :: r =>
      if badmissibleb rg h b ev && okb b ev then
        match bstep u8 b ev with Some b' => bfollow rg u8 okb (btrack h b ev) b' r | None => None end
      else None
  end.
Lemma bfollow_session rg bd u8 m0 (ok : bstate -> bevent -> Prop) okb evs :
  (forall b ev, okb b ev = true -> ok b ev) -> forall pre h b h' b',
  (forall o, In (BOnce (GStart o)) evs -> follows bd o) ->
  bsession rg bd u8 m0 ok pre h b -> bfollow rg u8 okb h b evs = Some (h', b') -> bsession rg bd u8 m0 ok (pre ++ evs) h' b'.
Proof.
  intros OK. induction evs as [|ev evs IH]; intros pre h b h' b' Fo H F; cbn [bfollow] in F.
  - injection F as <- <-. rewrite app_nil_r. exact H.
  - destruct (badmissibleb rg h b ev && okb b ev) eqn:A; [|discriminate F]. destruct (bstep u8 b ev) as [b1|] eqn:S; [|discriminate F].
    apply andb_true_iff in A as [A B].
    assert (A' : badmissible rg bd h b ev).
    { destruct ev as [x| |]; try exact Logic.I. apply (gadmissibleb_sound rg bd); [|exact A]. intros o ->. apply Fo. left. reflexivity. }
    pose proof (bsession_snoc rg bd u8 m0 ok pre h b ev b1 H A' (OK _ _ B) S) as H1.
    specialize (IH _ _ _ _ _ (fun o I => Fo o (or_intror I)) H1 F). rewrite <- app_assoc in IH. exact IH.
Qed.
Lemma bsession_case rg bd u8 m0 (ok : bstate -> bevent -> Prop) okb evs (P : ghist -> bstate -> bool) :
  (forall b ev, okb b ev = true -> ok b ev) -> (forall o, In (BOnce (GStart o)) evs -> follows bd o) ->
  match bfollow rg u8 okb (ghist0 m0) (binit m0) evs with Some (h, b) => P h b | None => false end = true ->
  exists h b, bsession rg bd u8 m0 ok evs h b /\ P h b = true.
Proof.
  intros OK Fo H. destruct (bfollow rg u8 okb (ghist0 m0) (binit m0) evs) as [[h b]|] eqn:F; [|discriminate H].
  exists h, b. split; [|exact H]. exact (bfollow_session rg bd u8 m0 ok okb evs OK [] _ _ h b Fo (bsession_nil rg bd u8 m0 ok) F).
Qed.
Lemma b_starts evs : forallb (fun ev => match ev with BOnce (GStart o) => handlerless o | _ => true end) evs = true ->
  forall o, In (BOnce (GStart o)) evs -> follows no_blobs o.
Proof. intros H o I. rewrite forallb_forall in H. apply handlerless_follows. exact (H _ I). Qed.

(** ** The sessions *)
Definition grun1 : list bevent := map BOnce (grun o1 (act "A" true "/p/b.txt" 1 ++ act "B" true "/p/c.txt" 1)).
Definition gagain (l : list gevent) : list bevent := BAgain :: map BOnce (GSetup :: l).
(** An input is edited, built and put back with its old time, all in one process. *)
Definition g_put_back : list bevent :=
  grun1 ++ [BStop; BOnce (GEdit "/p/a.txt" (Some 2%N))] ++
  map BOnce (grun o1 (act "A" true "/p/b.txt" 2 ++ act "B" true "/p/c.txt" 2)) ++
  [BOnce (GEdit "/p/a.txt" (Some 1%N))] ++ gagain [GEnter "A"; GEnter "B"].
(** Nothing is edited; the repeated run is killed after a callback that failed. *)
Definition g_killed : list bevent :=
  grun1 ++ gagain [GEnter "A"; GCall "A" false []] ++ [BOnce GCrash] ++ map BOnce (GStart o1 :: GSetup :: [GEnter "A"; GEnter "B"]).
(** Repeated runs: nothing new; after an edit with a failing callback; the next
    process repairs it, runs again after another edit and again without. *)
Definition g_lives : list bevent :=
  grun1 ++ gagain (act "A" true "/p/b.txt" 2 ++ act "B" true "/p/c.txt" 2) ++ [BOnce (GFinish WOk)] ++
  [BOnce (GEdit "/p/x.txt" (Some 2%N))] ++ gagain (act "A" true "/p/b.txt" 3 ++ act "B" false "/p/c.txt" 3) ++ [BOnce (GFinish WOk)] ++
  map BOnce (GStart o1 :: GSetup :: GEnter "A" :: act "B" true "/p/c.txt" 4 ++ [GFinish WOk]) ++
  [BOnce (GEdit "/p/a.txt" (Some 2%N))] ++ gagain (act "A" true "/p/b.txt" 5 ++ act "B" true "/p/c.txt" 5) ++ [BOnce (GFinish WOk)] ++
  gagain (act "A" true "/p/b.txt" 6 ++ act "B" true "/p/c.txt" 6).
Definition o1_A : gid := GI ["/p/a.txt"] ["/p/b.txt"] None.

Definition g_bad (b : bstate) : bool :=
  g_ok (b_st b) && gobj_eqb (g_cfg (b_st b)) o1 && gstaleb (g_disk (b_st b)) "A" "/p/a.txt".
Lemma g_bad_sound b : g_bad b = true -> g_ok (b_st b) = true /\ In ("A", o1_A) (go_ids (g_cfg (b_st b))) /\
  ~ id_current no_blobs (gd_mt (g_disk (b_st b))) (g_disk (b_st b)) "A" o1_A.
Proof.
  unfold g_bad. intros H. apply andb_true_iff in H as [H C]. apply andb_true_iff in H as [A B]. apply gobj_eqb_sound in B.
  split; [exact A|]. split; [rewrite B; left; reflexivity|]. apply (gstaleb_sound no_blobs _ _ "A" o1_A "/p/a.txt"); [reflexivity| |exact C].
  vm_compute. left. reflexivity.
Qed.
Lemma g_put_back_bad : exists h b, bsession Quiet no_blobs u80 files1 unrestricted (g_put_back ++ [BOnce (GFinish WOk)]) h b /\ g_bad b = true.
Proof. apply (bsession_case Quiet no_blobs u80 files1 unrestricted (fun _ _ => true)); [exact (fun _ _ _ => Logic.I)|apply b_starts|]; vm_compute; reflexivity. Qed.
Lemma g_killed_bad : exists h b, bsession Forward no_blobs u80 files1 unrestricted (g_killed ++ [BOnce (GFinish WOk)]) h b /\ g_bad b = true.
Proof. apply (bsession_case Forward no_blobs u80 files1 unrestricted (fun _ _ => true)); [exact (fun _ _ _ => Logic.I)|apply b_starts|]; vm_compute; reflexivity. Qed.
Lemma g_lives_case : exists h b, bsession Forward no_blobs u80 files1 bcareful (g_lives ++ [BOnce (GFinish WOk)]) h b /\
  g_ok (b_st b) && gobj_eqb (g_cfg (b_st b)) o1 && Nat.eqb (length (g_log (b_st b))) 11 = true.
Proof.
  apply (bsession_case Forward no_blobs u80 files1 bcareful bcarefulb _ (fun h b => g_ok (b_st b) && gobj_eqb (g_cfg (b_st b)) o1 && Nat.eqb (length (g_log (b_st b))) 11));
    [exact bcarefulb_sound|apply b_starts|]; vm_compute; reflexivity.
Qed.
(** The first run, and a repeated one with nothing changed. *)
Lemma g_idle_case : exists h b b', bsession Forward no_blobs u80 files1 bcareful grun1 h b /\ g_ok (b_st b) = true /\ gobj_eqb (g_cfg (b_st b)) o1 = true /\
  bexec u80 b (gagain (act "A" true "/p/b.txt" 2 ++ act "B" true "/p/c.txt" 2) ++ [BOnce (GFinish WOk)]) = Some b' /\ g_ok (b_st b') = true /\
  length (g_log (b_st b')) = length (g_log (b_st b)) + 2.
Proof.
  destruct (bsession_case Forward no_blobs u80 files1 bcareful bcarefulb grun1 (fun h b => g_ok (b_st b) && gobj_eqb (g_cfg (b_st b)) o1 &&
     match bexec u80 b (gagain (act "A" true "/p/b.txt" 2 ++ act "B" true "/p/c.txt" 2) ++ [BOnce (GFinish WOk)]) with
     | Some b' => g_ok (b_st b') && Nat.eqb (length (g_log (b_st b'))) (length (g_log (b_st b)) + 2) | None => false end)) as (h & b & A & B).
  - exact bcarefulb_sound.
  - apply b_starts. vm_compute. reflexivity.
  - vm_compute. reflexivity.
  - apply andb_true_iff in B as [B C]. apply andb_true_iff in B as [B D].
    destruct (bexec u80 b _) as [b'|] eqn:E; [|discriminate C]. apply andb_true_iff in C as [C F]. apply Nat.eqb_eq in F.
    exists h, b, b'. split; [exact A|]. split; [exact B|]. split; [exact D|]. split; [exact E|]. split; [exact C|exact F].
Qed.
