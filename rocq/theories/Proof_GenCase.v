(** Checking concrete generator histories by computation; the histories used in
    examples and refutations. *)
From Verif Require Import Prelude Proof_Prelude Model_Path Model_Json Model_Schema Model_Command
  Model_Target Spec_Target Proof_TargetBase Model_Gen Spec_Gen Proof_Gen Proof_GenInv Proof_GenMain Proof_GenRuns Proof_GenSel
  Proof_GenBlob Model_FileGen Spec_FileGen Proof_FileGen.

(** ** Deciding admissibility *)
Fixpoint pairs_eqb (a b : list (string * string)) : bool :=
  match a, b with
  | [], [] => true
  | x :: a', y :: b' => String.eqb (fst x) (fst y) && String.eqb (snd x) (snd y) && pairs_eqb a' b'
  | _, _ => false
  end.
Lemma pairs_eqb_sound a : forall b, pairs_eqb a b = true -> a = b.
Proof.
  induction a as [|[k v] a IH]; intros [|[k' v'] b]; cbn [pairs_eqb fst snd]; try discriminate; [reflexivity|].
  intros H. apply andb_true_iff in H as [H1 H2]. apply andb_true_iff in H1 as [H0 H1].
  apply String.eqb_eq in H0 as ->, H1 as ->. f_equal. exact (IH b H2).
Qed.
(** Equal, without blob handlers. *)
Definition gid_eqb (a b : gid) : bool :=
  str_list_eqb (gi_in a) (gi_in b) && str_list_eqb (gi_out a) (gi_out b) &&
  match gi_handler a, gi_handler b with None, None => true | _, _ => false end.
Fixpoint gids_eqb (a b : list (string * gid)) : bool :=
  match a, b with
  | [], [] => true
  | x :: a', y :: b' => String.eqb (fst x) (fst y) && gid_eqb (snd x) (snd y) && gids_eqb a' b'
  | _, _ => false
  end.
Lemma gid_eqb_sound a b : gid_eqb a b = true -> a = b.
Proof.
  unfold gid_eqb. destruct a as [i1 o1 h1], b as [i2 o2 h2]. cbn [gi_in gi_out gi_handler]. intros H. apply andb_true_iff in H as [H H3].
  apply andb_true_iff in H as [H1 H2]. apply str_list_eqb_eq in H1 as ->, H2 as ->. destruct h1, h2; try discriminate. reflexivity.
Qed.
Lemma gids_eqb_sound a : forall b, gids_eqb a b = true -> a = b.
Proof.
  induction a as [|[k v] a IH]; intros [|[k' v'] b]; cbn [gids_eqb fst snd]; try discriminate; [reflexivity|].
  intros H. apply andb_true_iff in H as [H1 H2]. apply andb_true_iff in H1 as [H0 H1].
  apply String.eqb_eq in H0 as ->. apply gid_eqb_sound in H1 as ->. f_equal. exact (IH b H2).
Qed.
Definition gobj_eqb (a b : gobj) : bool := pairs_eqb (go_args a) (go_args b) && gids_eqb (go_ids a) (go_ids b).
Lemma gobj_eqb_sound a b : gobj_eqb a b = true -> a = b.
Proof.
  unfold gobj_eqb. destruct a as [x1 y1], b as [x2 y2]. cbn [go_args go_ids]. intros H. apply andb_true_iff in H as [H1 H2].
  apply pairs_eqb_sound in H1 as ->. apply gids_eqb_sound in H2 as ->. reflexivity.
Qed.

Definition unreadb (st : gstate) (f : string) : bool :=
  forallb (fun x => negb (mem_str f (inputs_of (snd x))) ||
                    match assoc (fst x) (g_tasks st) with Some TWait | None => true | _ => false end) (go_ids (g_cfg st)).
Lemma unreadb_sound st f : unreadb st f = true -> unread st f.
Proof.
  unfold unreadb, unread. intros H id g t G I T. rewrite forallb_forall in H. specialize (H _ (assoc_In _ _ _ G)). cbn [fst snd] in H.
  apply mem_str_In in I. rewrite I, T in H. cbn [negb orb] in H. destruct t; try discriminate. reflexivity.
Qed.
Definition freshb (rg : regime) (h : ghist) (f : string) (t : option N) : bool :=
  match rg, t with Forward, Some v => N.leb (gh_next h f) v | _, _ => true end.
Lemma freshb_sound rg h f t : freshb rg h f t = true -> rg = Forward -> fresh h f t.
Proof. intros H -> v ->. apply N.leb_le. exact H. Qed.
Definition gadmissibleb (rg : regime) (h : ghist) (st : gstate) (ev : gevent) : bool :=
  match ev with
  | GEdit f t => unreadb st f && freshb rg h f t
  | GCrash => match rg, gh_taint h with Quiet, Some _ => false | _, _ => true end
  | GDropStore => match g_pc st with GIdle => true | _ => false end
  | GStart o => match gh_taint h with None => true | Some c => gobj_eqb o c end
  | GCall id ok w => forallb (fun x => unreadb st (fst x) && freshb rg h (fst x) (snd x)) w
  | GFinish w => match rg with Forward => true | Quiet => negb (gdirty st) || writes_gstore st w end
  | _ => true
  end.
Lemma gadmissibleb_sound rg bd h st ev :
  (forall o, ev = GStart o -> follows bd o) -> gadmissibleb rg h st ev = true -> gadmissible rg bd h st ev.
Proof.
  intros Fo. destruct ev as [f t| | | |o'| |i|i ok w|w|n]; cbn [gadmissibleb gadmissible]; intros H; try exact Logic.I.
  - apply andb_true_iff in H as [A B]. split; [apply unreadb_sound; exact A|apply freshb_sound; exact B].
  - destruct rg; [|left; reflexivity]. destruct (gh_taint h); [discriminate|right; reflexivity].
  - destruct (g_pc st); try discriminate. reflexivity.
  - split; [apply Fo; reflexivity|]. intros c K. rewrite K in H. apply gobj_eqb_sound. exact H.
  - intros f t I. rewrite forallb_forall in H. specialize (H _ I). cbn [fst snd] in H. apply andb_true_iff in H as [A B].
    split; [apply unreadb_sound; exact A|apply freshb_sound; exact B].
  - destruct rg; [|left; reflexivity]. apply orb_true_iff in H as [H|H]; [right; left; apply negb_true_iff; exact H|right; right; exact H].
Qed.
Fixpoint gfollow (rg : regime) (u8 : string -> N) (h : ghist) (st : gstate) (evs : list gevent) : option (ghist * gstate) :=
  match evs with
  | [] => Some (h, st)
  | ev :: r =>
      if gadmissibleb rg h st ev then
        match gstep u8 st ev with Some st' => gfollow rg u8 (gtrack h st ev) st' r | None => None end
      else None
  end.
Lemma gfollow_history rg bd u8 m0 evs : forall pre h st h' st',
  (forall o, In (GStart o) evs -> follows bd o) ->
  ghistory rg bd u8 m0 pre h st -> gfollow rg u8 h st evs = Some (h', st') -> ghistory rg bd u8 m0 (pre ++ evs) h' st'.
Proof.
  induction evs as [|ev evs IH]; intros pre h st h' st' Fo H F; cbn [gfollow] in F.
  - injection F as <- <-. rewrite app_nil_r. exact H.
  - destruct (gadmissibleb rg h st ev) eqn:A; [|discriminate]. destruct (gstep u8 st ev) as [st1|] eqn:S; [|discriminate].
    apply (gadmissibleb_sound rg bd) in A; [|intros o ->; apply Fo; left; reflexivity].
    pose proof (ghistory_snoc rg bd u8 m0 pre h st ev st1 H A S) as H1.
    specialize (IH _ _ _ _ _ (fun o I => Fo o (or_intror I)) H1 F). rewrite <- app_assoc in IH. exact IH.
Qed.
Lemma gfollow_case rg bd u8 m0 evs (P : ghist -> gstate -> bool) :
  (forall o, In (GStart o) evs -> follows bd o) ->
  match gfollow rg u8 (ghist0 m0) (ginit m0) evs with Some (h, st) => P h st | None => false end = true ->
  exists h st, ghistory rg bd u8 m0 evs h st /\ P h st = true.
Proof.
  intros Fo H. destruct (gfollow rg u8 (ghist0 m0) (ginit m0) evs) as [[h st]|] eqn:F; [|discriminate].
  exists h, st. split; [|exact H]. exact (gfollow_history rg bd u8 m0 evs [] _ _ h st Fo (ghistory_nil rg bd u8 m0) F).
Qed.
Lemma gexec_case u8 st evs (P : gstate -> bool) :
  match gexec u8 st evs with Some st' => P st' | None => false end = true ->
  exists st', gexec u8 st evs = Some st' /\ P st' = true.
Proof. destruct (gexec u8 st evs) as [st'|]; [|discriminate]. intros H. exists st'. split; [reflexivity|exact H]. Qed.

(** ** Disciplines *)
Definition no_blobs : discipline := fun _ => None.
Lemma no_blobs_lawful : lawful no_blobs.
Proof. intros id R K. discriminate. Qed.
Definition handlerless (o : gobj) : bool := forallb (fun x => match gi_handler (snd x) with None => true | _ => false end) (go_ids o).
Lemma handlerless_follows o : handlerless o = true -> follows no_blobs o.
Proof.
  intros H id g I. unfold handlerless in H. rewrite forallb_forall in H. specialize (H _ I). cbn [snd] in H.
  destruct (gi_handler g); [discriminate|exact Logic.I].
Qed.
Lemma starts_follow bd evs (P : gobj -> bool) :
  (forall o, P o = true -> follows bd o) ->
  forallb (fun ev => match ev with GStart o => P o | _ => true end) evs = true ->
  forall o, In (GStart o) evs -> follows bd o.
Proof. intros S H o I. rewrite forallb_forall in H. exact (S o (H _ I)). Qed.

Lemma file_follows f o : fbuild f = AOk o -> go_ids (fg_base f) = [] -> follows file_blobs o.
Proof.
  intros B N id g I. destruct (fbuild_id _ _ B) as (_ & g' & G1 & G2 & _). rewrite N in G1. rewrite G1 in I.
  destruct I as [I|[]]. injection I as <- <-. rewrite G2. change (file_blobs "Generate") with (Some (fun x y => deserialize x = deserialize y)).
  cbn beta iota. intros x y. cbn [strings_handler bh_equal]. destruct (deserialize x), (deserialize y); try discriminate.
  intros [= K]. apply str_list_eqb_eq in K. congruence.
Qed.

Lemma fdo_ids l : forall f f', fdo_all f l = AOk f' -> go_ids (fg_base f') = go_ids (fg_base f).
Proof.
  induction l as [|c r IH]; intros f f'; cbn [fdo_all]; [intros [= <-]; reflexivity|].
  destruct (fdo f c) as [g| |] eqn:E; try discriminate. intros H. rewrite (IH _ _ H). clear H IH.
  destruct c as [k p|p|p|p args]; cbn [fdo] in E.
  - unfold add_pattern in E. destruct (construct (go_args (fg_base f)) p []); try discriminate. injection E as <-. reflexivity.
  - injection E as <-. reflexivity.
  - injection E as <-. reflexivity.
  - destruct (construct (go_args (fg_base f)) p args); try discriminate. injection E as <-. reflexivity.
Qed.
Lemma fdo_follows base calls f o :
  go_ids base = [] -> fdo_all (fgen_new base) calls = AOk f -> fbuild f = AOk o -> follows file_blobs o.
Proof. intros N D B. apply (file_follows f o B). rewrite (fdo_ids _ _ _ D). exact N. Qed.

(** ** Programs and histories *)
Definition u80 : string -> N := fun _ => 0%N.
Definition files1 : times := fun f => if mem_str f ["/p/a.txt"; "/p/x.txt"] then Some 1%N else None.
Definition base0 : gobj := gen_new "/p" "/p/_b" "/p" "/p/_b/g".
Definition o1 : gobj :=
  GO (go_args base0) [("A", GI ["/p/a.txt"] ["/p/b.txt"] None); ("B", GI ["/p/x.txt"; "/p/a.txt"] ["/p/c.txt"] None)].
(** "B" gone, "D" new. *)
Definition o2 : gobj :=
  GO (go_args base0) [("A", GI ["/p/a.txt"] ["/p/b.txt"] None); ("D", GI ["/p/x.txt"] ["/p/d.txt"] None)].
(** "B" reads what "A" writes. *)
Definition oC : gobj :=
  GO (go_args base0) [("A", GI ["/p/a.txt"] ["/p/b.txt"] None); ("B", GI ["/p/b.txt"] ["/p/c.txt"] None)].
Definition act (id : string) (ok : bool) (out : string) (t : N) : list gevent := [GEnter id; GCall id ok [(out, Some t)]].
Definition grun (o : gobj) (l : list gevent) : list gevent := GStart o :: GSetup :: l ++ [GFinish WOk].

(** Both ids generated; "B" fails after an edit, "A" is skipped; repaired; killed while
    both callbacks had succeeded; the next run completes. *)
Definition gbusy : list gevent :=
  grun o1 (act "A" true "/p/b.txt" 1 ++ act "B" true "/p/c.txt" 1) ++
  [GEdit "/p/a.txt" (Some 2%N)] ++
  grun o1 (act "B" false "/p/c.txt" 2 ++ [GEnter "A"]) ++
  grun o1 (act "A" true "/p/b.txt" 3 ++ act "B" true "/p/c.txt" 3) ++
  [GEdit "/p/x.txt" (Some 2%N)].
Definition gbusy_end : list gevent :=
  GStart o1 :: GSetup :: GEnter "A" :: act "B" true "/p/c.txt" 4.
Definition gkill : list gevent :=
  gbusy ++ gbusy_end ++ [GCrash] ++ GStart o1 :: GSetup :: GEnter "A" :: act "B" true "/p/c.txt" 5.

Lemma gbusy_starts rest : forallb (fun ev => match ev with GStart o => handlerless o | _ => true end) rest = true ->
  forall o, In (GStart o) rest -> follows no_blobs o.
Proof. apply starts_follow. exact handlerless_follows. Qed.

(** C40: the consumer "B" looks at b.txt before "A" rewrites it. *)
Definition gchain : list gevent :=
  grun oC (act "A" true "/p/b.txt" 1 ++ act "B" true "/p/c.txt" 1) ++
  [GEdit "/p/a.txt" (Some 2%N)] ++
  grun oC (GEnter "B" :: act "A" true "/p/b.txt" 2).
Definition gstaleb (d : gdisk) (id f : string) : bool :=
  match gd_made d id with
  | None => true
  | Some a => match ga_snap a f, gd_mt d f with Some x, Some y => negb (N.eqb x y) | None, None => false | _, _ => true end
  end.
Lemma gstaleb_sound bd mt d id g f : mt = gd_mt d -> In f (inputs_of g) -> gstaleb d id f = true -> ~ id_current bd mt d id g.
Proof.
  intros -> I H (a & A & _ & _ & _ & S). unfold gstaleb in H. rewrite A, (S f I) in H.
  destruct (gd_mt d f); [rewrite N.eqb_refl in H|]; discriminate.
Qed.
Definition oC_B : gid := GI ["/p/b.txt"] ["/p/c.txt"] None.
(** The state file's entries decide about all later runs. *)
Definition settledb (u8 : string -> N) (o : gobj) (d : gdisk) : bool :=
  match gstored u8 d with
  | None => false
  | Some s =>
      negb (compute_build (Some s) o) &&
      forallb (fun x => match assoc (fst x) (gs_ids s), convert (gd_mt d) (snd x) with
                        | Some i, Some cur => match is_changed (gi_handler (snd x)) i cur with Some false => true | _ => false end
                        | _, _ => false
                        end) (go_ids o)
  end.
Lemma settledb_sound u8 o d : settledb u8 o d = true -> settled u8 o d.
Proof.
  unfold settledb. destruct (gstored u8 d) as [s|] eqn:E; [|discriminate]. intros H. apply andb_true_iff in H as [H1 H2].
  exists s. split; [exact E|]. split; [apply negb_true_iff; exact H1|]. intros id g G. rewrite forallb_forall in H2.
  specialize (H2 _ (assoc_In _ _ _ G)). cbn [fst snd] in H2. destruct (assoc id (gs_ids s)) as [i|]; [|discriminate].
  destruct (convert (gd_mt d) g) as [cur|]; [|discriminate]. exists i, cur. split; [reflexivity|]. split; [reflexivity|].
  destruct (is_changed (gi_handler g) i cur) as [[]|]; try discriminate. reflexivity.
Qed.
Definition gquietb (st : gstate) : bool :=
  match g_pc st with GIdle => true | _ => false end && negb (g_dirty st) && match g_tasks st with [] => true | _ => false end.
Lemma gquietb_resting u8 o st : gquietb st = true -> settledb u8 o (g_disk st) = true -> resting u8 o st.
Proof.
  unfold gquietb. intros H S. apply andb_true_iff in H as [H H3]. apply andb_true_iff in H as [H1 H2].
  apply idle_resting; [apply settledb_sound; exact S| |apply negb_true_iff; exact H2|].
  - destruct (g_pc st); try discriminate. reflexivity.
  - destruct (g_tasks st); [reflexivity|discriminate].
Qed.
Lemma chain_stale : exists st, gexec u80 (ginit files1) gchain = Some st /\ g_ok st = true /\ In ("B", oC_B) (go_ids (g_cfg st)) /\
  ~ id_current no_blobs (gd_mt (g_disk st)) (g_disk st) "B" oC_B /\
  forall evs st2, Forall (gundisturbed oC) evs -> gexec u80 st evs = Some st2 ->
    g_log st2 = g_log st /\ ~ id_current no_blobs (gd_mt (g_disk st)) (g_disk st2) "B" oC_B.
Proof.
  destruct (gexec_case u80 (ginit files1) gchain
    (fun st => g_ok st && gobj_eqb (g_cfg st) oC && gstaleb (g_disk st) "B" "/p/b.txt" && gquietb st && settledb u80 oC (g_disk st))) as (st & X & P).
  { vm_compute. reflexivity. }
  apply andb_true_iff in P as [P P5]. apply andb_true_iff in P as [P P4]. apply andb_true_iff in P as [P P3]. apply andb_true_iff in P as [P1 P2].
  apply gobj_eqb_sound in P2.
  assert (Stale : ~ id_current no_blobs (gd_mt (g_disk st)) (g_disk st) "B" oC_B).
  { apply (gstaleb_sound _ _ _ _ _ "/p/b.txt" eq_refl); [left; reflexivity|exact P3]. }
  exists st. split; [exact X|]. split; [exact P1|]. split; [rewrite P2; right; left; reflexivity|]. split; [exact Stale|].
  intros evs st2 U Y. destruct (resting_exec _ _ _ _ _ (gquietb_resting _ _ _ P4 P5) U Y) as (_ & A & _ & B).
  split; [exact A|]. unfold id_current in *. rewrite B. exact Stale.
Qed.

(** C44: a pattern gets another value. *)
Definition tcalls (v : string) : list tcall := [TPattern "v" v; TTemplate "{current_root_dir}/a.txt" "{current_build_dir}/b.txt"].
Definition tgen_of (v : string) : tgen := match tdo_all (TG base0 []) (tcalls v) with AOk t => t | _ => TG base0 [] end.
Definition tprog (v : string) : gobj := match tbuild "/p" (tg_base (tgen_of v)) (tg_infos (tgen_of v)) with AOk o => o | _ => base0 end.
Definition text0 : string -> N -> string := fun _ _ => "version {v}".
Definition tid : string := "a.txt".
Definition gtemplate : list gevent :=
  grun (tprog "1") (act tid true "/p/_b/g/b.txt" 1) ++ grun (tprog "2") [GEnter tid].
Lemma tprog_ok v : v = "1" \/ v = "2" -> tdo_all (TG base0 []) (tcalls v) = AOk (tgen_of v) /\
  tbuild "/p" (tg_base (tgen_of v)) (tg_infos (tgen_of v)) = AOk (tprog v).
Proof. intros [-> | ->]; split; vm_compute; reflexivity. Qed.
Definition opt_str_eqb (a b : option string) : bool :=
  match a, b with Some x, Some y => String.eqb x y | None, None => true | _, _ => false end.
Lemma opt_str_eqb_eq a b : opt_str_eqb a b = true -> a = b.
Proof. destruct a, b; cbn; try discriminate; try reflexivity. intros H. apply String.eqb_eq in H. congruence. Qed.
Lemma template_stale : exists h st a, ghistory Quiet no_blobs u80 files1 gtemplate h st /\ g_ok st = true /\
  g_cfg st = tprog "2" /\ gd_made (g_disk st) tid = Some a /\
  template_text text0 a = Some "version 1" /\
  construct (go_args (g_cfg st)) (text0 "/p/a.txt" 1%N) [] = FOk "version 2".
Proof.
  destruct (gfollow_case Quiet no_blobs u80 files1 gtemplate (fun h st => g_ok st && gobj_eqb (g_cfg st) (tprog "2") &&
    match gd_made (g_disk st) tid with Some a => opt_str_eqb (template_text text0 a) (Some "version 1") | None => false end)) as (h & st & H & P).
  { apply gbusy_starts. vm_compute. reflexivity. }
  { vm_compute. reflexivity. }
  apply andb_true_iff in P as [P P3]. apply andb_true_iff in P as [P1 P2]. apply gobj_eqb_sound in P2.
  destruct (gd_made (g_disk st) tid) as [a|] eqn:M; [|discriminate]. exists h, st, a. split; [exact H|]. split; [exact P1|].
  split; [exact P2|]. split; [exact M|]. split; [apply opt_str_eqb_eq; exact P3|]. rewrite P2. vm_compute. reflexivity.
Qed.

(** FileGenerator programs. *)
Definition fcalls (cmds : list string) : list fcall :=
  FInput "{current_root_dir}/a.txt" :: FOutput "{current_build_dir}/b.txt" :: FPattern "tool" "gen" ::
  map (fun c => FCommand c [("arg", "v")]) cmds.
Definition fgen_of (cmds : list string) : fgen := match fdo_all (fgen_new base0) (fcalls cmds) with AOk f => f | _ => fgen_new base0 end.
Definition fprog (cmds : list string) : gobj := match fbuild (fgen_of cmds) with AOk o => o | _ => base0 end.
Definition cmds1 : list string := ["{tool} {arg} one"; "{tool} two"].
Definition cmds2 : list string := ["{tool} two"; "{tool} {arg} one"].
Definition gfile1 : list gevent := GStart (fprog cmds1) :: GSetup :: act "Generate" true "/p/_b/g/b.txt" 1.
Definition gfile2 : list gevent := GStart (fprog cmds2) :: GSetup :: act "Generate" true "/p/_b/g/b.txt" 2.
Lemma fprog_ok cmds : cmds = cmds1 \/ cmds = cmds2 ->
  fdo_all (fgen_new base0) (fcalls cmds) = AOk (fgen_of cmds) /\ fbuild (fgen_of cmds) = AOk (fprog cmds) /\
  go_ids (fg_base (fgen_of cmds)) = [] /\ encodable (fg_commands (fgen_of cmds)).
Proof.
  assert (X : forall f, (match fbuild f with AOk _ => true | _ => false end) = true ->
    fbuild f = AOk (match fbuild f with AOk o => o | _ => base0 end)) by (intros f; destruct (fbuild f); [reflexivity|discriminate|discriminate]).
  intros [-> | ->]; (split; [vm_compute; reflexivity|]); (split; [apply X; vm_compute; reflexivity|]); (split; [vm_compute; reflexivity|]).
  - assert (E : fg_commands (fgen_of cmds1) = ["gen v one"; "gen two"]) by (vm_compute; reflexivity). rewrite E.
    split; [cbn; lia|]. repeat constructor; cbn; lia.
  - assert (E : fg_commands (fgen_of cmds2) = ["gen two"; "gen v one"]) by (vm_compute; reflexivity). rewrite E.
    split; [cbn; lia|]. repeat constructor; cbn; lia.
Qed.
Lemma file_starts evs : (forall o, In (GStart o) evs -> o = fprog cmds1 \/ o = fprog cmds2) -> forall o, In (GStart o) evs -> follows file_blobs o.
Proof.
  intros H o I. destruct (H o I) as [-> | ->].
  - destruct (fprog_ok cmds1 (or_introl eq_refl)) as (_ & B & N & _). exact (file_follows _ _ B N).
  - destruct (fprog_ok cmds2 (or_intror eq_refl)) as (_ & B & N & _). exact (file_follows _ _ B N).
Qed.
Definition gstarted (evs : list gevent) : list gobj := flat_map (fun ev => match ev with GStart o => [o] | _ => [] end) evs.
Lemma gstarted_In evs o : In (GStart o) evs -> In o (gstarted evs).
Proof. intros H. apply in_flat_map. exists (GStart o). split; [exact H|left; reflexivity]. Qed.
Lemma files_start evs : (gstarted evs = [fprog cmds1] \/ gstarted evs = [fprog cmds1; fprog cmds2]) -> forall o, In (GStart o) evs -> follows file_blobs o.
Proof.
  intros E. apply file_starts. intros o H. apply gstarted_In in H. destruct E as [E|E]; rewrite E in H; cbn [In] in H;
    destruct H as [H|H]; [left; symmetry; exact H|destruct H|left; symmetry; exact H|].
  destruct H as [H|H]; [right; symmetry; exact H|destruct H].
Qed.

(** C46: the id "A" with and without a typed blob. *)
Definition oB (h : option handler) : gobj := GO (go_args base0) [("A", GI ["/p/a.txt"] ["/p/b.txt"] h)].
Definition hx : handler := strings_handler ["x"].
Definition hy : handler := strings_handler ["y"].
Definition same_strings : discipline := fun id => if String.eqb id "A" then Some (fun x y => deserialize x = deserialize y) else None.
Lemma same_strings_lawful : lawful same_strings.
Proof.
  intros id R. unfold same_strings. destruct (String.eqb id "A"); [|discriminate]. intros [= <-]. split; [reflexivity|congruence].
Qed.

(** C58: killed after the callback of another program. *)
Definition gkilled_other : list gevent :=
  grun (oB (Some hx)) (act "A" true "/p/b.txt" 1) ++
  GStart (oB (Some hy)) :: GSetup :: act "A" true "/p/b.txt" 2 ++ GCrash ::
  grun (oB (Some hx)) [GEnter "A"].
Lemma killed_stale : exists st g, gexec u80 (ginit files1) gkilled_other = Some st /\ g_ok st = true /\
  go_ids (g_cfg st) = [("A", g)] /\ gi_handler g = Some hx /\
  exists a, gd_made (g_disk st) "A" = Some a /\ deserialize (ga_blob a) = Some ["y"].
Proof.
  destruct (gexec_case u80 (ginit files1) gkilled_other (fun st => g_ok st && match gd_made (g_disk st) "A" with
    | Some a => match deserialize (ga_blob a) with Some l => str_list_eqb l ["y"] | None => false end | None => false end)) as (st & X & P).
  { vm_compute. reflexivity. }
  apply andb_true_iff in P as [P1 P2].
  assert (C : g_cfg st = oB (Some hx)).
  { change gkilled_other with ((grun (oB (Some hx)) (act "A" true "/p/b.txt" 1) ++
      GStart (oB (Some hy)) :: GSetup :: act "A" true "/p/b.txt" 2 ++ [GCrash]) ++
      GStart (oB (Some hx)) :: [GSetup; GEnter "A"; GFinish WOk]) in X.
    apply (cfg_run _ _ _ _ _ _ X). intros o [K|[K|[K|[]]]]; discriminate. }
  destruct (gd_made (g_disk st) "A") as [a|] eqn:M; [|discriminate]. destruct (deserialize (ga_blob a)) as [l|] eqn:D; [|discriminate].
  apply str_list_eqb_eq in P2 as ->. exists st, (GI ["/p/a.txt"] ["/p/b.txt"] (Some hx)). split; [exact X|]. split; [exact P1|].
  rewrite C. split; [reflexivity|]. split; [reflexivity|]. exists a. split; [exact M|exact D].
Qed.

(** C46 *)
Definition lost : list gevent := grun (oB (Some hx)) (act "A" true "/p/b.txt" 1).
Lemma lost_unnoticed : exists st st2, gexec u80 (ginit files1) lost = Some st /\ g_ok st = true /\
  gexec u80 st (grun (oB None) [GEnter "A"]) = Some st2 /\ g_ok st2 = true /\ g_log st2 = g_log st.
Proof.
  destruct (gexec_case u80 (ginit files1) lost (fun st => g_ok st &&
    match gexec u80 st (grun (oB None) [GEnter "A"]) with
    | Some st2 => g_ok st2 && Nat.eqb (length (g_log st2)) 1 && Nat.eqb (length (g_log st)) 1
    | None => false end)) as (st & X & P).
  { vm_compute. reflexivity. }
  apply andb_true_iff in P as [P1 P2]. destruct (gexec u80 st (grun (oB None) [GEnter "A"])) as [st2|] eqn:Y; [|discriminate].
  apply andb_true_iff in P2 as [P2 P4]. apply andb_true_iff in P2 as [P2 P3]. apply Nat.eqb_eq in P3, P4.
  exists st, st2. split; [exact X|]. split; [exact P1|]. split; [exact Y|]. split; [exact P2|].
  assert (K : exists l, g_log st2 = g_log st ++ l).
  { destruct (g_pc st) eqn:Pc; [|unfold grun in Y; cbn [gexec gstep] in Y; rewrite Pc in Y; discriminate|
      unfold grun in Y; cbn [gexec gstep] in Y; rewrite Pc in Y; discriminate].
    assert (F : Forall (subtask (oB None)) [GEnter "A"]) by (constructor; [exact Logic.I|constructor]).
    destruct (ids_exact u80 st (oB None) [GEnter "A"] WOk st2 Pc F Y P2) as (_ & _ & l & L & _). eauto. }
  destruct K as (l & K). rewrite K. destruct l as [|c l]; [apply app_nil_r|]. rewrite K, app_length, P4 in P3. cbn [length] in P3. lia.
Qed.

Definition idle_stateb (st : gstate) : bool := gquietb st.
Lemma idle_stateb_sound st : idle_stateb st = true -> g_pc st = GIdle /\ g_dirty st = false /\ g_tasks st = [].
Proof.
  unfold idle_stateb, gquietb. intros H. apply andb_true_iff in H as [H H3]. apply andb_true_iff in H as [H1 H2].
  split; [destruct (g_pc st); try discriminate; reflexivity|]. split; [apply negb_true_iff; exact H2|].
  destruct (g_tasks st); [reflexivity|discriminate].
Qed.
Definition plain (g : gid) : gid := GI (gi_in g) (gi_out g) None.
Definition rejectedb (mt : times) (i : idinfo) (g : gid) : bool :=
  match convert mt (plain g), gi_handler g with
  | Some cur, Some h => infolist_eqb (ii_inputs i) (ii_inputs cur) && str_list_eqb (ii_outputs i) (outputs_of g) &&
                        (negb (bh_verify h (ii_blob i)) || match bh_equal h (ii_blob i) (bh_data h) with None => true | _ => false end)
  | _, _ => false
  end.
Lemma rejectedb_sound mt i g : rejectedb mt i g = true -> id_rejected mt i g.
Proof.
  unfold rejectedb. destruct (convert mt (plain g)) as [cur|] eqn:C; [|discriminate]. destruct (gi_handler g) as [h|] eqn:H; [|discriminate].
  intros K. apply andb_true_iff in K as [K K3]. apply andb_true_iff in K as [K1 K2]. apply infolist_eqb_eq in K1. apply str_list_eqb_eq in K2.
  destruct (convert_spec _ _ _ C) as (C1 & _). split; [|split; [exact K2|]].
  - change (Hashed mt (inputs_of g) (ii_inputs i)). rewrite K1. exact C1.
  - exists h. split; [exact H|]. apply orb_true_iff in K3 as [K3|K3]; [left; apply negb_true_iff; exact K3|right].
    destruct (bh_equal h (ii_blob i) (bh_data h)); [discriminate|reflexivity].
Qed.
Definition gained : list gevent := grun (oB None) (act "A" true "/p/b.txt" 1).
Lemma gained_jams (h : handler) : bh_verify h [] = false ->
  exists st, gexec u80 (ginit files1) gained = Some st /\ g_ok st = true /\
  forall evs st2, Forall (gundisturbed (oB (Some h))) evs -> gexec u80 st evs = Some st2 ->
    g_log st2 = g_log st /\ gd_store (g_disk st2) = gd_store (g_disk st) /\
    (forall w st3, gstep u80 st2 (GFinish w) = Some st3 -> g_ok st3 = false).
Proof.
  intros Hv. destruct (gexec_case u80 (ginit files1) gained (fun st => g_ok st && idle_stateb st &&
    match gstored u80 (g_disk st) with
    | Some s => match gs_ids s with [(k, i)] => String.eqb k "A" && is_nil (ii_blob i) &&
                 match convert (gd_mt (g_disk st)) (GI ["/p/a.txt"] ["/p/b.txt"] None) with
                 | Some cur => infolist_eqb (ii_inputs i) (ii_inputs cur) && str_list_eqb (ii_outputs i) (ii_outputs cur)
                 | None => false end | _ => false end
    | None => false end)) as (st & X & P).
  { vm_compute. reflexivity. }
  apply andb_true_iff in P as [P P3]. apply andb_true_iff in P as [P1 P2]. apply idle_stateb_sound in P2 as (I1 & I2 & I3).
  destruct (gstored u80 (g_disk st)) as [s|] eqn:Es; [|discriminate]. destruct (gs_ids s) as [|[k i] [|]] eqn:Ei; try discriminate.
  apply andb_true_iff in P3 as [P3 P4]. apply andb_true_iff in P3 as [K1 K2]. apply String.eqb_eq in K1 as ->.
  destruct (convert _ _) as [cur|] eqn:C in P4; [|discriminate]. apply andb_true_iff in P4 as [P4 P5].
  apply infolist_eqb_eq in P4. apply str_list_eqb_eq in P5. destruct (convert_spec _ _ _ C) as (C1 & C2 & _).
  exists st. split; [exact X|]. split; [exact P1|]. intros evs st2 U Y.
  apply (jammed_for_ever u80 (oB (Some h)) st s evs st2 I1 I2 I3 Es); try assumption.
  - intros id. rewrite Ei. reflexivity.
  - cbn. constructor; [intros []|constructor].
  - intros id g [K|[]]. injection K as <- <-. exists i. rewrite Ei. split; [reflexivity|]. split; [|split].
    + rewrite P4. exact C1.
    + rewrite P5, C2. reflexivity.
    + exists h. split; [reflexivity|]. left. destruct (ii_blob i); [exact Hv|discriminate].
  - discriminate.
Qed.

(** C57: outputs are not looked at. *)
Lemma output_deletion_unnoticed rg bd u8 m0 evs h st f evs2 st2 :
  lawful bd -> ghistory rg bd u8 m0 (evs ++ [GFinish WOk]) h st -> g_ok st = true -> sane_handlers (g_cfg st) ->
  (forall id g, In (id, g) (go_ids (g_cfg st)) -> ~ In f (inputs_of g)) ->
  Forall (gundisturbed (g_cfg st)) evs2 -> (forall t, ~ In (GEdit f t) evs2) ->
  gexec u8 st (GEdit f None :: evs2) = Some st2 ->
  g_log st2 = g_log st /\ gd_mt (g_disk st2) f = None.
Proof.
  intros L H O SH N U E X. assert (U' : Forall (gundisturbed (g_cfg st)) (GEdit f None :: evs2)) by (constructor; assumption).
  destruct (generator_rests _ _ _ _ _ _ _ _ _ L H O SH U' X) as (A & _). split; [exact A|].
  assert (R := after_resting _ _ _ _ _ _ _ L H O SH). cbn [gexec gstep] in X.
  set (st1 := gwith_disk st _) in X. assert (M : gd_mt (g_disk st1) f = None) by (subst st1; gsp; unfold upd; rewrite String.eqb_refl; reflexivity).
  assert (R1 : resting u8 (g_cfg st) st1).
  { apply Forall_cons_iff in U' as [U1 _]. exact (proj1 (resting_step u8 _ st (GEdit f None) st1 R U1 eq_refl)). }
  clearbody st1. clear H O A U' R. revert st1 M R1 X. induction evs2 as [|ev evs2 IH]; intros st1 M R1 X; cbn [gexec] in X.
  - injection X as <-. exact M.
  - apply Forall_cons_iff in U as [U1 U2]. destruct (gstep u8 st1 ev) as [sta|] eqn:S; [|discriminate].
    apply (IH U2 (fun t K => E t (or_intror K)) sta); [|exact (proj1 (resting_step _ _ _ _ _ R1 U1 S))|exact X].
    assert (Same : forall x, gd_mt (g_disk x) = gd_mt (g_disk st1) -> gd_mt (g_disk x) f = None) by (intros x K; rewrite K; exact M).
    destruct ev as [f' t| | | |o'| |i|i ok w|w|n]; cbn [gstep] in S.
    + injection S as <-. gsp. unfold upd. destruct (String.eqb f f') eqn:Q; [|exact M]. apply String.eqb_eq in Q as <-.
      exfalso. exact (E t (or_introl eq_refl)).
    + injection S as <-. exact M.
    + destruct (g_pc st1); try discriminate; injection S as <-; exact M.
    + contradiction.
    + destruct (g_pc st1); try discriminate. unfold gstart in S. destruct (gobj_ok o'); [|discriminate]. injection S as <-. exact M.
    + destruct (g_pc st1); try discriminate. injection S as <-. unfold gsetup. destruct (negb (g_ok st1)); exact M.
    + destruct (g_pc st1), (assoc i (g_tasks st1)) as [[]|], (assoc i (go_ids (g_cfg st1))) as [g|]; try discriminate.
      injection S as <-. unfold genter. destruct (negb (g_ok st1)); [exact M|].
      destruct (convert _ g) as [cur|]; [|exact M]. destruct (assoc i _) as [pr|]; [|exact M].
      destruct (is_changed _ pr cur) as [[]|]; exact M.
    + destruct (g_pc st1); try discriminate. destruct (assoc i (g_tasks st1)) as [[| |]|] eqn:W; try discriminate.
      exfalso. destruct (calm_assoc _ _ _ (rs_calm _ _ _ R1) W) as [K|(b & K)]; discriminate.
    + destruct (finish_keeps u8 st1 w sta S) as (_ & _ & _ & Em & _). apply Same. exact Em.
    + destruct (g_pc st1); try discriminate. destruct (forallb _ _ && gdirty st1); [|discriminate].
      destruct (bind (final_text st1) (short n)); [|discriminate]. injection S as <-. exact M.
Qed.
