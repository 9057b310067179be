(** Checking concrete histories with edits half-way by computation; [Model_Torn] and
    [Model_Target] agree when nothing is edited half-way. *)
From Verif Require Import Prelude Proof_Prelude Model_Path Model_Json Model_Schema Model_Command Spec_Command
  Proof_Command Model_ToolchainConfig Model_Target Spec_Target Proof_TargetBase Proof_TargetInv Proof_TargetRun
  Proof_TargetStep Proof_TargetStep2 Proof_TargetMain Proof_TargetCase Model_Torn Spec_Torn.

Lemma some_st (x : option tstate) (g : tstate -> string -> list (option N)) :
  option_map w_st (match x with Some st' => Some (WS st' (g st')) | None => None end) = x.
Proof. destruct x; reflexivity. Qed.
(** An event that finds every file as it is when the event ends is that of [Model_Target]. *)
Lemma wstep_now (e : tenv) (w : wstate) (ev : event) :
  option_map w_st (wstep e w ev (d_mt (s_disk (w_st w)))) = step e (w_st w) ev.
Proof.
  unfold wstep. rewrite (some_st _ (fun st' => seen_after st' (w_seen w) ev)). destruct ev; reflexivity.
Qed.

(** Events with the versions found, of the files for which it is not the last one. *)
Definition found := list (string * option N).
Definition saw_of (w : wstate) (o : found) : times :=
  fun f => match assoc f o with Some v => v | None => hd None (w_seen w f) end.
Definition foundb (w : wstate) (o : found) : bool :=
  forallb (fun fv => existsb (timeb (snd fv)) (w_seen w (fst fv))) o.
Definition tadmissibleb (e : tenv) (h : hist) (st : tstate) (ev : event) : bool :=
  admissibleb Forward e h st ev &&
  match ev with
  | EvEdit f _ => negb (contains_pch (s_cfg st) && match s_pc st with PcPch => true | _ => false end && mem_str f (headers (s_cfg st)))
  | _ => true
  end.
Lemma tadmissibleb_sound e h st ev : tadmissibleb e h st ev = true -> tadmissible e h st ev.
Proof.
  unfold tadmissibleb. intros H. apply andb_true_iff in H as [A B]. split; [exact (admissibleb_sound _ _ _ _ _ A)|].
  destruct ev; try exact I. intros (C1 & C2 & C3). apply mem_str_In in C3. rewrite C1, C2, C3 in B. discriminate.
Qed.
Lemma timeb_eq (a b : option N) : timeb a b = true -> a = b.
Proof. destruct a, b; cbn; try discriminate; try reflexivity. intros H. apply N.eqb_eq in H. congruence. Qed.
Lemma saw_of_in (w : wstate) (o : found) : (forall f, w_seen w f <> []) -> foundb w o = true ->
  forall f, In (saw_of w o f) (w_seen w f).
Proof.
  intros N B f. unfold saw_of. destruct (assoc f o) as [v|] eqn:E.
  - apply assoc_In in E. unfold foundb in B. rewrite forallb_forall in B. specialize (B _ E). cbn [fst snd] in B.
    apply existsb_exists in B as (u & Hu & K). apply timeb_eq in K. subst u. exact Hu.
  - specialize (N f). destruct (w_seen w f); [contradiction|left; reflexivity].
Qed.
Lemma seen_nonempty e w ev saw w' : wstep e w ev saw = Some w' ->
  (forall f, w_seen w f <> []) -> forall f, w_seen w' f <> [].
Proof.
  unfold wstep. destruct (match ev with EvPchCheck => _ | _ => _ end) as [st'|]; [|discriminate]. intros [= <-] N f.
  cbn [w_seen]. destruct ev; cbn [seen_after]; try exact (N f); try discriminate.
  unfold upd. destruct (String.eqb f f0); [discriminate|exact (N f)].
Qed.

Fixpoint tfollow (e : tenv) (h : hist) (w : wstate) (evs : list (event * found)) : option (hist * wstate) :=
  match evs with
  | [] => Some (h, w)
  | (ev, o) :: r =>
      if tadmissibleb e h (w_st w) ev && foundb w o then
        match wstep e w ev (saw_of w o) with Some w' => tfollow e (ttrack e h (w_st w) ev) w' r | None => None end
      else None
  end.
Lemma tfollow_history e d0 evs : forall pre h w h' w',
  thistory e d0 pre h w -> (forall f, w_seen w f <> []) -> tfollow e h w evs = Some (h', w') ->
  exists l, thistory e d0 (pre ++ l) h' w' /\ map fst l = map fst evs.
Proof.
  induction evs as [|[ev o] evs IH]; intros pre h w h' w' H N F; cbn [tfollow] in F.
  - injection F as <- <-. exists []. rewrite app_nil_r. split; [exact H|reflexivity].
  - destruct (tadmissibleb e h (w_st w) ev) eqn:A; [|discriminate]. destruct (foundb w o) eqn:B; [|discriminate]. cbn [andb] in F.
    destruct (wstep e w ev (saw_of w o)) as [w1|] eqn:S; [|discriminate].
    apply tadmissibleb_sound in A. pose proof (saw_of_in w o N B) as K.
    pose proof (thistory_snoc e d0 pre h w ev _ w1 H A (fun _ => K) S) as H1.
    destruct (IH _ _ _ _ _ H1 (seen_nonempty _ _ _ _ _ S N) F) as (l & L1 & L2). exists ((ev, saw_of w o) :: l).
    rewrite <- app_assoc in L1. split; [exact L1|]. cbn [map fst]. rewrite L2. reflexivity.
Qed.
Lemma tfollow_case e d0 evs (P : hist -> wstate -> bool) :
  match tfollow e (hist0 d0) (WS (init d0) (fun f => [d_mt d0 f])) evs with Some (h, w) => P h w | None => false end = true ->
  exists l h w, thistory e d0 l h w /\ map fst l = map fst evs /\ P h w = true.
Proof.
  intros H. destruct (tfollow e (hist0 d0) _ evs) as [[h w]|] eqn:F; [|discriminate].
  destruct (tfollow_history e d0 evs [] _ _ h w (thistory_nil e d0)) with (2 := F) as (l & L1 & L2); [discriminate|].
  exists l, h, w. split; [exact L1|]. split; [exact L2|exact H].
Qed.

(** The first run.  While the sources are checked, [a.cpp] is edited after it was
    looked at; [h.h] is edited before it is looked at.  While [a.cpp] is compiled, both
    are edited again, and the compiler gets the new [a.cpp] with the old [h.h].
    Then a run in which nothing is edited. *)
Definition torn_first : list (event * found) :=
  [(EvStart cA ordA, []);
   (EvEdit "/p/h.h" (Some 4%N), []); (EvEdit "/p/a.cpp" (Some 3%N), []);
   (EvObjCheck, [("/p/a.cpp", Some 1%N)]);
   (EvCompile "/p/b.cpp" XOk, []);
   (EvEdit "/p/a.cpp" (Some 5%N), []); (EvEdit "/p/h.h" (Some 7%N), []);
   (EvCompile "/p/a.cpp" XOk, [("/p/h.h", Some 4%N)]);
   (EvLinkCheck, []); (EvLinkExec XOk, []); (EvEnd WOk, [])].
Definition torn_second : list (event * found) :=
  map (fun ev => (ev, [])) (full_run cA ordA ["/p/b.cpp"; "/p/a.cpp"]).
(** With a PCH: the PCH file is edited during its check and during its compile. *)
Definition torn_pch : list (event * found) :=
  [(EvStart cP ordA, []); (EvEdit "/p/pch.h" (Some 2%N), []); (EvPchCheck, [("/p/pch.h", Some 1%N)]);
   (EvEdit "/p/pch.h" (Some 3%N), []); (EvPchExec XOk, [("/p/pch.h", Some 2%N)]);
   (EvObjCheck, []); (EvCompile "/p/b.cpp" XOk, []); (EvCompile "/p/a.cpp" XOk, []);
   (EvLinkCheck, []); (EvLinkExec XOk, []); (EvEnd WOk, [])] ++
  map (fun ev => (ev, [])) (full_run cP ordA ["/p/b.cpp"; "/p/a.cpp"]).
(** [o]'s object was made from version [t] of [f]. *)
Definition made_from (w : wstate) (o f : string) (t : N) : bool :=
  match d_obj (s_disk (w_st w)) (obj_of e0 o) with Some a => timeb (a_snap a f) (Some t) | None => false end.
