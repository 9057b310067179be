(** Concrete contents: a toolchain that writes down what it reads. *)
From Verif Require Import Prelude Proof_Prelude Model_Json Model_Schema Model_Command Model_ToolchainConfig Model_Target Spec_Target
  Proof_TargetMain Proof_TargetCase Spec_Bytes Proof_Bytes.

(** ** Following histories by computation *)
Definition fill (p : event * note) : event * note :=
  match p with
  | (EvPchExec (XFail _), Junk x) => (EvPchExec (XFail (Some (junk_pch x))), Junk x)
  | (EvCompile s (XFail _), Junk x) => (EvCompile s (XFail (Some (junk_obj x))), Junk x)
  | (EvLinkExec (XFail _), Junk x) => (EvLinkExec (XFail (Some (junk_tgt x))), Junk x)
  | _ => p
  end.
Definition notedb (p : event * note) : bool :=
  match p with
  | (EvEdit _ (Some _), Contents _) => true
  | (EvEdit _ (Some _), _) => false
  | (EvPchExec (XFail None), Gone) | (EvCompile _ (XFail None), Gone) | (EvLinkExec (XFail None), Gone) => true
  | (EvPchExec (XFail _), Junk _) | (EvCompile _ (XFail _), Junk _) | (EvLinkExec (XFail _), Junk _) => true
  | (EvPchExec (XFail _), _) | (EvCompile _ (XFail _), _) | (EvLinkExec (XFail _), _) => false
  | (_, Nothing) => true
  | _ => false
  end.
Lemma notedb_sound e st p : notedb p = true -> noted e st (fst (fill p)) (snd (fill p)).
Proof.
  destruct p as [ev n]. destruct ev; destruct n; try destruct t; try destruct r; try destruct lo;
    intros H; cbn in H; try discriminate H; cbn [fill fst snd noted left_behind]; eauto.
Qed.
Fixpoint bfollow (t : tools) (rg : regime) (e : tenv) (h : hist) (st : tstate) (b : bytes) (evs : list (event * note)) : option (hist * tstate * bytes) :=
  match evs with
  | [] => Some (h, st, b)
  | p :: r =>
      if admissibleb rg e h st (fst (fill p)) && notedb p then
        match step e st (fst (fill p)) with
        | Some st' => bfollow t rg e (track e h st (fst (fill p))) st' (written t e st b (fst (fill p)) (snd (fill p))) r
        | None => None
        end
      else None
  end.
Lemma bfollow_bhistory t rg e d0 b0 evs : forall pre h st b h' st' b', bhistory t rg e d0 b0 pre h st b ->
  bfollow t rg e h st b evs = Some (h', st', b') -> bhistory t rg e d0 b0 (pre ++ map fill evs) h' st' b'.
Proof.
  induction evs as [|p evs IH]; intros pre h st b h' st' b' H F; cbn [bfollow] in F.
  - injection F as <- <- <-. cbn [map]. rewrite app_nil_r. exact H.
  - destruct (admissibleb rg e h st (fst (fill p))) eqn:A; [|discriminate]. destruct (notedb p) eqn:N; [|discriminate]. cbn [andb] in F.
    destruct (step e st (fst (fill p))) as [st1|] eqn:S; [|discriminate].
    pose proof (bh_snoc t rg e d0 b0 pre h st b _ _ st1 H (admissibleb_sound _ _ _ _ _ A) (notedb_sound e st p N) S) as H1.
    specialize (IH _ _ _ _ _ _ _ H1 F). rewrite <- app_assoc in IH. cbn [map app]. destruct (fill p). exact IH.
Qed.
Lemma bfollow_case t rg e d0 b0 evs (P : hist -> tstate -> bytes -> bool) :
  match bfollow t rg e (hist0 d0) (init d0) b0 evs with Some (h, st, b) => P h st b | None => false end = true ->
  exists h st b, bhistory t rg e d0 b0 (map fill evs) h st b /\ P h st b = true.
Proof.
  intros H. destruct (bfollow _ _ _ _ _ _ _) as [[[h st] b]|] eqn:F; [|discriminate]. exists h, st, b. split; [|exact H].
  exact (bfollow_bhistory t rg e d0 b0 evs [] _ _ _ h st b (bh_nil _ _ _ _ _) F).
Qed.

(** ** The toolchain *)
Fixpoint reading (F : contents) (l : list string) : string :=
  match l with [] => "" | f :: r => match F f with Some x => "<" +++ x +++ ">" | None => "<?>" end +++ reading F r end.
Lemma reading_same F G l : same_on l F G -> reading F l = reading G l.
Proof. induction l as [|f l IH]; intros H; [reflexivity|]. cbn [reading]. rewrite (H f (or_introl eq_refl)), IH; [reflexivity|]. intros g I. apply H. right. exact I. Qed.
Lemma reading_incl F G l m : same_on m F G -> incl l m -> reading F l = reading G l.
Proof. intros H I. apply reading_same. intros f K. apply H, I, K. Qed.

Definition deps_of (cmd : string) : list string :=
  match compile_command e0 cP "/p/a.cpp", compile_command e0 cP "/p/b.cpp" with
  | FOk a, FOk b => if String.eqb cmd a then ["/p/a.cpp"; "/p/h.h"] else if String.eqb cmd b then ["/p/b.cpp"; "/p/h.h"] else []
  | _, _ => []
  end.
Definition tools0 : tools :=
  TOOLS (fun cmd _ F => "pch:" +++ reading F ["/p/h.h"; "/p/pch.h"])
        (fun cmd F p => "obj:" +++ reading F (deps_of cmd) +++ match p with Some x => x | None => "" end)
        (fun cmd F O => "exe:" +++ reading F ["/p/l.a"; "/p/dep"] +++ reading O [obj_of e0 "/p/a.cpp"; obj_of e0 "/p/b.cpp"]).

Lemma tools0_reads : reads_declared tools0 e0 cP.
Proof.
  constructor; cbn [run_pch run_cc run_ld tools0].
  - intros cmd text F G _ S. f_equal. apply (reading_incl _ _ _ _ S). vm_compute. tauto.
  - intros s cmd F G p Is Ec S. do 2 f_equal. apply (reading_incl _ _ _ _ S).
    destruct Is as [<-|[<-|[]]]; revert Ec; vm_compute compile_command; intros [= <-]; vm_compute; tauto.
  - intros s cmd F p q _ _ K. discriminate K.
  - intros ord cmd F G O P _ _ S1 S2. rewrite (reading_incl _ _ _ _ S1), (reading_incl _ _ _ _ S2); [reflexivity| |]; vm_compute; tauto.
Qed.
Lemma tools0_order : order_free tools0 e0 cP.
Proof. intros ord ord' cmd cmd' F O _ _ _ _. reflexivity. Qed.
Lemma cP_commands : commands_nonempty e0 cP.
Proof.
  split; [|split].
  - intros _. vm_compute. discriminate.
  - intros s [<-|[<-|[]]]; vm_compute; discriminate.
  - intros ord K. unfold link_command in K. vm_compute in K. discriminate K.
Qed.

Definition bytes0 : bytes := BY (fun f => if mem_str f ["/p/a.cpp"; "/p/b.cpp"; "/p/c.c"; "/p/h.h"; "/p/pch.h"; "/p/l.a"; "/p/dep"] then Some ("v1 of " +++ f) else None) None (fun _ => None) None.
Lemma bytes0_start : fresh_start disk0 bytes0.
Proof.
  split; [|repeat split]. intros f. cbn [b_files bytes0 disk0 d_mt]. unfold all_files.
  destruct (mem_str _ _); split; congruence.
Qed.

Definition plain_evs (l : list event) : list (event * note) := map (fun ev => (ev, Nothing)) l.
(** Built; the PCH file and a source are edited; the PCH compile fails leaving
    junk behind; a run is killed after one compile; built. *)
Definition bevs : list (event * note) :=
  plain_evs (full_run cP ordA ["/p/b.cpp"; "/p/a.cpp"]) ++
  [(EvEdit "/p/pch.h" (Some 4%N), Contents "new pch"); (EvEdit "/p/a.cpp" (Some 5%N), Contents "new a")] ++
  plain_evs [EvStart cP ordA; EvPchCheck] ++ (EvPchExec (XFail None), Junk "half a header") :: plain_evs [EvObjCheck; EvLinkCheck; EvEnd WOk] ++
  plain_evs [EvStart cP ordA; EvPchCheck; EvPchExec XOk; EvObjCheck; EvCompile "/p/a.cpp" XOk; EvCrash] ++
  plain_evs (full_run cP ordA ["/p/a.cpp"; "/p/b.cpp"]).
(** Built; a source is replaced by one of the same age; built again. *)
Definition same_time : list (event * note) :=
  plain_evs (full_run cP ordA ["/p/b.cpp"; "/p/a.cpp"]) ++
  (EvEdit "/p/a.cpp" (Some 1%N), Contents "new a") :: plain_evs (idle_run cP ordA).

Lemma bevs_case : exists h st b, bhistory tools0 Forward e0 disk0 bytes0 (map fill bevs) h st b /\
  (s_ok st && cfg_eqb (s_cfg st) cP && negb (h_edited h) &&
   match b_tgt b with
   | Some x => String.eqb x ("exe:<v1 of /p/l.a><v1 of /p/dep>" +++
       "<obj:<new a><v1 of /p/h.h>pch:<v1 of /p/h.h><new pch>>" +++ "<obj:<v1 of /p/b.cpp><v1 of /p/h.h>pch:<v1 of /p/h.h><new pch>>")
   | None => false
   end) = true.
Proof. apply bfollow_case. vm_compute. reflexivity. Qed.

Definition opt_eqb (a b : option string) : bool :=
  match a, b with Some x, Some y => String.eqb x y | None, None => true | _, _ => false end.
Lemma same_time_case : exists h st b, bhistory tools0 Quiet e0 disk0 bytes0 (map fill same_time) h st b /\
  (s_ok st && cfg_eqb (s_cfg st) cP && negb (h_edited h) &&
   match compile_command e0 cP "/p/a.cpp" with
   | FOk cmd => negb (opt_eqb (b_obj b (obj_of e0 "/p/a.cpp")) (Some (run_cc tools0 cmd (b_files b) (b_pch b))))
   | _ => false
   end) = true.
Proof. apply bfollow_case. vm_compute. reflexivity. Qed.

Lemma same_time_stale : exists t e d0 b0 evs w n h st b, templates_ok e /\
  bhistory t Quiet e d0 b0 (evs ++ [(EvEnd w, n)]) h st b /\ s_ok st = true /\ fresh_start d0 b0 /\
  reads_declared t e (s_cfg st) /\ commands_nonempty e (s_cfg st) /\ ~ made_from t e (s_cfg st) b.
Proof.
  destruct same_time_case as (h & st & b & H & P). apply andb_true_iff in P as [P P4]. apply andb_true_iff in P as [P P3].
  apply andb_true_iff in P as [P1 P2]. apply cfg_eqb_sound in P2.
  exists tools0, e0, disk0, bytes0, (removelast (map fill same_time)), WOk, Nothing, h, st, b.
  split; [exact e0_templates|]. split; [exact H|]. split; [exact P1|]. split; [exact bytes0_start|]. rewrite P2.
  split; [exact tools0_reads|]. split; [exact cP_commands|]. intros (_ & O & _).
  destruct (O "/p/a.cpp" (or_introl eq_refl)) as (cmd & Ec & E). rewrite Ec in P4. rewrite E in P4. cbn [opt_eqb] in P4.
  rewrite String.eqb_refl in P4. discriminate P4.
Qed.
